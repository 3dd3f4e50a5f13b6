(** The final form of the lemmas behind PropsLogic.v. *)
From Coq Require Import ZArith List Bool Lia.
From Verif Require Import Cpp BigNum Bit Logic Spec ZBits Words BigNumProofs BigArith BitProofs BitSlice BitExt BitOps
  BitShift BitCmp BitArith BitMain BitMain2 BitMain3 BitMain4 BitMain5 LogicProofs LogicOps LogicRed LogicArith LogicArith2
  LogicConv LogicConv2.
Import ListNotations.
Open Scope Z_scope.

(** * access *)
Lemma one_bit_eq b : typed b 1 false -> b = bit0 (bit_at b 0).
Proof.
  intros T. destruct (typed_cases b 1 false ltac:(lia) T) as [(v & E & R & I)|(ws & E & R & I)]; [|lia].
  rewrite hty_1 in I. apply in_bool in I. rewrite E. destruct I as [-> | ->]; reflexivity.
Qed.
Lemma one_logic_eq x : ltyped x 1 false -> x = sym1 (sym_at x 0).
Proof.
  intros [A B]. apply one_bit_eq in A, B. destruct x as [v m]. cbn [l_val l_xz] in *. unfold sym_at, sym1. cbn [l_val l_xz].
  rewrite unknown_mask. rewrite A, B at 1. f_equal. f_equal. destruct (bit_at v 0), (bit_at m 0); reflexivity.
Qed.
Lemma place_inj msb lsb i j : in_range msb lsb i -> in_range msb lsb j -> place msb lsb i = place msb lsb j -> i = j.
Proof. unfold in_range, place. destruct (lsb <=? msb); lia. Qed.
Lemma access4 l i s : lvec l -> Z.min (lmsb l) (llsb l) = 0 -> in_range (lmsb l) (llsb l) i -> (unknown s = true -> i < 64) ->
  exists l', (match s with S0 => logic_set l i false | S1 => logic_set l i true | SX => logic_set_x l i | SZ => logic_set_z l i end) = Ok l' /\
    (forall x, ltyped x 1 false -> sym_at x 0 = s -> logic_set_l l i x = Ok l') /\
    lvec l' /\ lmsb l' = lmsb l /\ llsb l' = llsb l /\ lsgn l' = lsgn l /\
    (exists r, logic_get l' i = Ok r /\ ltyped r 1 false /\ sym_at r 0 = s) /\
    (forall j, in_range (lmsb l) (llsb l) j -> j <> i -> logic_get l' j = logic_get l j) /\
    (forall j, ~ in_range (lmsb l) (llsb l) j -> exists r, logic_get l' j = Ok r /\ sym_at r 0 = SX).
Proof.
  intros V Z0 R U. destruct (logic_write_spec l i s V Z0 R) as (l' & E & E2 & V' & A & B & C & _ & Q). exists l'.
  split; [exact E|]. split. { intros x Tx <-. rewrite <- E2. now rewrite (one_logic_eq x Tx) at 1. }
  split; [exact V'|]. split; [exact A|]. split; [exact B|]. split; [exact C|].
  assert (Z0' : zero_based l') by (unfold zero_based; rewrite A, B; exact Z0).
  assert (PR : forall j, in_range (lmsb l) (llsb l) j -> 0 <= place (lmsb l) (llsb l) j < lw l) by (intros j Hj; apply (get_pair l j V Z0 Hj)).
  split; [|split].
  - rewrite (logic_get_spec l' i V' Z0') by (rewrite A, B; exact R). rewrite A, B. rewrite Q, Z.eqb_refl by now apply PR.
    exists (sym1 s). destruct (sym1_spec s) as (T1 & _ & T2). split; [|auto]. destruct (unknown s); [|reflexivity]. rewrite (proj2 (Z.leb_gt _ _)) by auto. reflexivity.
  - intros j Hj N. rewrite (logic_get_spec l' j V' Z0'), (logic_get_spec l j V Z0) by (rewrite ?A, ?B; exact Hj). rewrite A, B.
    rewrite Q by now apply PR. rewrite (proj2 (Z.eqb_neq _ _)); [reflexivity|]. intros Ep. apply N. now apply (place_inj (lmsb l) (llsb l)).
  - intros j Hj. exists (sym1 SX). rewrite logic_get_outside by (rewrite A, B; exact Hj). split; [reflexivity|]. apply sym1_spec.
Qed.
Lemma read4 l j : lvec l -> Z.min (lmsb l) (llsb l) = 0 -> in_range (lmsb l) (llsb l) j ->
  (unknown (sym_at l (place (lmsb l) (llsb l) j)) = true -> j < 64) ->
  exists r, logic_get l j = Ok r /\ ltyped r 1 false /\ sym_at r 0 = sym_at l (place (lmsb l) (llsb l) j).
Proof.
  intros V Z0 R U. rewrite (logic_get_spec l j V Z0 R). set (s := sym_at _ _) in *. exists (sym1 s). destruct (sym1_spec s) as (T1 & _ & T2). split; [|auto].
  destruct (unknown s); [|reflexivity]. rewrite (proj2 (Z.leb_gt _ _)) by auto. reflexivity.
Qed.
Definition x70 := mkLogic (bit_zero 69 0 false) (bit_zero 69 0 false).
Lemma access4_counter : exists l l', ltyped l 70 false /\ logic_set_x l 69 = Ok l' /\ logic_get l' 69 = UB.
Proof. exists x70. eexists. split; [conc|]. split; [vm_compute; reflexivity|]. vm_compute. reflexivity. Qed.

(** * bitwise *)
Lemma logic_same_op op sop f a b n : (forall a b n, lopnd a n -> lopnd b n -> lsgn a && lsgn b = false ->
    exists r, sop a b = Ok r /\ ltyped r n false /\ (tidy (l_xz a) -> tidy (l_xz b) -> ltidy r) /\ forall p, 0 <= p < n -> sym_at r p = f (sym_at a p) (sym_at b p)) ->
  (forall a b, lsize a = lsize b -> op a b = sop a b) ->
  lvec a -> lvec b -> lw a = n -> lw b = n -> llsb a <= lmsb a -> llsb b <= lmsb b -> lsgn a && lsgn b = false ->
  exists r, op a b = Ok r /\ ltyped r n false /\ (tidy (l_xz a) -> tidy (l_xz b) -> ltidy r) /\ forall p, 0 <= p < n -> sym_at r p = f (sym_at a p) (sym_at b p).
Proof.
  intros H E Va Vb Wa Wb Da Db S. rewrite E. 2:{ unfold lw in *. change (bw (l_val a) = bw (l_val b)). congruence. }
  apply H; auto; split; auto.
Qed.
Lemma and_eq a b : lsize a = lsize b -> logic_and a b = logic_and_same a b. Proof. intros E. unfold logic_and. now rewrite E, Z.eqb_refl. Qed.
Lemma or_eq a b : lsize a = lsize b -> logic_or a b = logic_or_same a b. Proof. intros E. unfold logic_or. now rewrite E, Z.eqb_refl. Qed.
Lemma xor_eq a b : lsize a = lsize b -> logic_xor a b = logic_xor_same a b. Proof. intros E. unfold logic_xor. now rewrite E, Z.eqb_refl. Qed.
Lemma and_gen a b n : lopnd a n -> lopnd b n -> lsgn a && lsgn b = false ->
    exists r, logic_and_same a b = Ok r /\ ltyped r n false /\ (tidy (l_xz a) -> tidy (l_xz b) -> ltidy r) /\ forall p, 0 <= p < n -> sym_at r p = and_code (sym_at a p) (sym_at b p).
Proof. intros A B S. destruct (and_same_spec a b n A B S) as (r & E & T & D & Q). exists r. auto. Qed.
Lemma or_gen a b n : lopnd a n -> lopnd b n -> lsgn a && lsgn b = false ->
    exists r, logic_or_same a b = Ok r /\ ltyped r n false /\ (tidy (l_xz a) -> tidy (l_xz b) -> ltidy r) /\ forall p, 0 <= p < n -> sym_at r p = or_code (sym_at a p) (sym_at b p).
Proof. intros A B S. destruct (or_same_spec a b n A B S) as (r & E & T & D & Q). exists r. auto. Qed.
Lemma and4_main a b n : lvec a -> lvec b -> lw a = n -> lw b = n -> llsb a <= lmsb a -> llsb b <= lmsb b -> lsgn a && lsgn b = false ->
  exists r, logic_and a b = Ok r /\ ltyped r n false /\ ltidy r /\ forall p, 0 <= p < n ->
    sym_at r p = match sym_at a p, sym_at b p with SX, S0 => SX | SZ, S1 => S1 | SZ, SZ => SZ | s, t => and4 s t end.
Proof.
  intros Va Vb Wa Wb Da Db S. rewrite and_eq. 2:{ unfold lw in *. change (bw (l_val a) = bw (l_val b)). congruence. }
  destruct (and_same_spec a b n ltac:(split; auto) ltac:(split; auto) S) as (r & E & T & D & Q).
  exists r. split; [exact E|]. split; [exact T|]. split; [exact D|]. intros p Hp. rewrite Q by exact Hp. destruct (sym_at a p), (sym_at b p); reflexivity.
Qed.
Lemma or4_main a b n : lvec a -> lvec b -> lw a = n -> lw b = n -> llsb a <= lmsb a -> llsb b <= lmsb b -> lsgn a && lsgn b = false ->
  exists r, logic_or a b = Ok r /\ ltyped r n false /\ ltidy r /\ forall p, 0 <= p < n ->
    sym_at r p = match sym_at a p, sym_at b p with SX, S0 => S1 | SZ, S1 => SX | s, t => or4 s t end.
Proof.
  intros Va Vb Wa Wb Da Db S. rewrite or_eq. 2:{ unfold lw in *. change (bw (l_val a) = bw (l_val b)). congruence. }
  destruct (or_same_spec a b n ltac:(split; auto) ltac:(split; auto) S) as (r & E & T & D & Q).
  exists r. split; [exact E|]. split; [exact T|]. split; [exact D|]. intros p Hp. rewrite Q by exact Hp. destruct (sym_at a p), (sym_at b p); reflexivity.
Qed.
Lemma xor4_main a b n : lvec a -> lvec b -> lw a = n -> lw b = n -> llsb a <= lmsb a -> llsb b <= lmsb b -> lsgn a && lsgn b = false ->
  exists r, logic_xor a b = Ok r /\ ltyped r n false /\ (tidy (l_xz a) -> tidy (l_xz b) -> ltidy r) /\ forall p, 0 <= p < n -> sym_at r p = xor4 (sym_at a p) (sym_at b p).
Proof. exact (logic_same_op logic_xor logic_xor_same xor4 a b n xor_same_spec xor_eq). Qed.
Lemma bitwise_signed_rejected a b n : lvec a -> lvec b -> lw a = n -> lw b = n -> llsb a <= lmsb a -> llsb b <= lmsb b -> lsgn a = true -> lsgn b = true ->
  logic_and a b = IllFormed /\ logic_or a b = IllFormed /\ logic_xor a b = IllFormed.
Proof.
  intros Va Vb Wa Wb Da Db Sa Sb. assert (E : lsize a = lsize b) by (change (lw a = lw b); congruence).
  rewrite and_eq, or_eq, xor_eq by exact E. apply (signed_rejected a b n); auto; split; auto.
Qed.
Lemma not4_main a n : lvec a -> lw a = n -> exists r, logic_not a = Ok r /\ ltyped r n false /\ (tidy (l_xz a) -> ltidy r) /\ forall p, 0 <= p < n -> sym_at r p = not4 (sym_at a p).
Proof. intros V W. apply logic_not_spec; auto. rewrite <- W. apply V. Qed.
Lemma mixed_main op sop f a b na nb : (forall a b, lsize a <> lsize b -> op a b = logic_mixed sop a b) ->
  (forall a b n, lopnd a n -> lopnd b n -> lsgn a && lsgn b = false ->
    exists r, sop a b = Ok r /\ ltyped r n false /\ (tidy (l_xz a) -> tidy (l_xz b) -> ltidy r) /\ forall p, 0 <= p < n -> sym_at r p = f (sym_at a p) (sym_at b p)) ->
  1 <= na -> 1 <= nb -> na <> nb -> ltyped a na false -> ltyped b nb false -> ltidy a -> ltidy b ->
  exists r, op a b = Ok r /\ ltyped r (Z.max na nb) false /\ ltidy r /\ forall p, 0 <= p < Z.max na nb ->
    sym_at r p = f (if p <? na then sym_at a p else S0) (if p <? nb then sym_at b p else S0).
Proof.
  intros E H Ha Hb N Ta Tb Da Db. rewrite E. 2:{ rewrite (ltyped_lsize _ _ _ Ha Ta), (ltyped_lsize _ _ _ Hb Tb). exact N. }
  exact (logic_mixed_u sop f a b na nb Ha Hb Ta Tb Da Db H).
Qed.
Lemma and_mixed_eq a b : lsize a <> lsize b -> logic_and a b = logic_mixed logic_and_same a b. Proof. intros E. unfold logic_and. now rewrite (proj2 (Z.eqb_neq _ _) E). Qed.
Lemma or_mixed_eq a b : lsize a <> lsize b -> logic_or a b = logic_mixed logic_or_same a b. Proof. intros E. unfold logic_or. now rewrite (proj2 (Z.eqb_neq _ _) E). Qed.
Lemma xor_mixed_eq a b : lsize a <> lsize b -> logic_xor a b = logic_mixed logic_or_same a b. Proof. intros E. unfold logic_xor. now rewrite (proj2 (Z.eqb_neq _ _) E). Qed.
Lemma and_mixed a b na nb : 1 <= na -> 1 <= nb -> na <> nb -> ltyped a na false -> ltyped b nb false -> ltidy a -> ltidy b ->
  exists r, logic_and a b = Ok r /\ ltyped r (Z.max na nb) false /\ ltidy r /\ forall p, 0 <= p < Z.max na nb ->
    sym_at r p = and_code (if p <? na then sym_at a p else S0) (if p <? nb then sym_at b p else S0).
Proof. exact (mixed_main logic_and logic_and_same and_code a b na nb and_mixed_eq and_gen). Qed.
Lemma or_mixed a b na nb : 1 <= na -> 1 <= nb -> na <> nb -> ltyped a na false -> ltyped b nb false -> ltidy a -> ltidy b ->
  exists r, logic_or a b = Ok r /\ ltyped r (Z.max na nb) false /\ ltidy r /\ forall p, 0 <= p < Z.max na nb ->
    sym_at r p = or_code (if p <? na then sym_at a p else S0) (if p <? nb then sym_at b p else S0).
Proof. exact (mixed_main logic_or logic_or_same or_code a b na nb or_mixed_eq or_gen). Qed.
Lemma xor_mixed a b na nb : 1 <= na -> 1 <= nb -> na <> nb -> ltyped a na false -> ltyped b nb false -> ltidy a -> ltidy b ->
  (forall p, 0 <= p < Z.max na nb ->
     match (if p <? na then sym_at a p else S0), (if p <? nb then sym_at b p else S0) with
     | S1, S1 | S1, SX | S1, SZ | SX, S0 | SX, S1 => False | _, _ => True end) ->
  exists r, logic_xor a b = Ok r /\ ltyped r (Z.max na nb) false /\ ltidy r /\ forall p, 0 <= p < Z.max na nb ->
    sym_at r p = xor4 (if p <? na then sym_at a p else S0) (if p <? nb then sym_at b p else S0).
Proof.
  intros Ha Hb N Ta Tb Da Db C. destruct (mixed_main logic_xor logic_or_same or_code a b na nb xor_mixed_eq or_gen Ha Hb N Ta Tb Da Db) as (r & E & T & D & Q).
  exists r. split; [exact E|]. split; [exact T|]. split; [exact D|]. intros p Hp. rewrite Q by exact Hp. specialize (C p Hp).
  destruct (if p <? na then sym_at a p else S0), (if p <? nb then sym_at b p else S0); try reflexivity; destruct C.
Qed.

Definition l2 (a b : sym) : logic :=
  let v s := match s with S1 | SZ => 1 | _ => 0 end in let m s := match s with SX | SZ => 1 | _ => 0 end in
  mkLogic (bit_of_native 1 0 false (2 * v a + v b)) (bit_of_native 1 0 false (2 * m a + m b)).
Lemma and_counter : exists a b r, ltyped a 2 false /\ ltyped b 2 false /\ ltidy a /\ ltidy b /\ logic_and a b = Ok r /\
  sym_at a 0 = SX /\ sym_at b 0 = S0 /\ sym_at r 0 = SX /\ sym_at a 1 = SZ /\ sym_at b 1 = S1 /\ sym_at r 1 = S1.
Proof. exists (l2 SZ SX), (l2 S1 S0). eexists. repeat (split; [conc || (vm_compute; reflexivity)|]). conc. Qed.
Lemma or_counter : exists a b r, ltyped a 2 false /\ ltyped b 2 false /\ ltidy a /\ ltidy b /\ logic_or a b = Ok r /\
  sym_at a 0 = SX /\ sym_at b 0 = S0 /\ sym_at r 0 = S1 /\ sym_at a 1 = SZ /\ sym_at b 1 = S1 /\ sym_at r 1 = SX.
Proof. exists (l2 SZ SX), (l2 S1 S0). eexists. repeat (split; [conc || (vm_compute; reflexivity)|]). conc. Qed.
Lemma xor_mixed_counter : exists a b r, ltyped a 2 false /\ ltyped b 1 false /\ ltidy a /\ ltidy b /\ logic_xor a b = Ok r /\
  sym_at a 0 = S1 /\ sym_at b 0 = S1 /\ sym_at r 0 = S1.
Proof. exists (l2 S0 S1), logic_one. eexists. repeat (split; [conc || (vm_compute; reflexivity)|]). conc. Qed.

(** known operands *)
Lemma sym_known l p : lvec l -> known l -> sym_at l p = sym_of_bool (bit_at (l_val l) p).
Proof. intros V K. apply known_num in K; [|exact V]. unfold sym_at. rewrite (known_num0 _ K). apply sym_of_known. Qed.
Lemma known_bitwise a b n : lvec a -> lvec b -> lw a = n -> lw b = n -> llsb a <= lmsb a -> llsb b <= lmsb b -> lsgn a && lsgn b = false ->
  known a -> known b ->
  (exists r r' v, logic_and a b = Ok r /\ logic_and b a = Ok r' /\ bit_and (l_val a) (l_val b) = Ok v /\ known r /\
     forall p, 0 <= p < n -> sym_at r p = sym_of_bool (bit_at (l_val a) p && bit_at (l_val b) p) /\ sym_at r' p = sym_at r p /\ bit_at v p = bit_at (l_val r) p) /\
  (exists r r' v, logic_or a b = Ok r /\ logic_or b a = Ok r' /\ bit_or (l_val a) (l_val b) = Ok v /\ known r /\
     forall p, 0 <= p < n -> sym_at r p = sym_of_bool (bit_at (l_val a) p || bit_at (l_val b) p) /\ sym_at r' p = sym_at r p /\ bit_at v p = bit_at (l_val r) p).
Proof.
  intros Va Vb Wa Wb Da Db S Ka Kb. assert (S' : lsgn b && lsgn a = false) by (rewrite andb_comm; exact S).
  assert (Hb : forall v r p, lvec r -> known r -> sym_at r p = sym_of_bool v -> v = bit_at (l_val r) p).
  { intros v r p V K E. rewrite (sym_known r p V K) in E. destruct v, (bit_at (l_val r) p); cbn in E; congruence. }
  assert (Hn : 1 <= n) by (rewrite <- Wa; apply lw_pos).
  split.
  - destruct (and4_main a b n) as (r & E & T & _ & Q); auto. destruct (and4_main b a n) as (r' & E' & _ & _ & Q'); auto.
    destruct (bitwise_and_same (l_val a) (l_val b) n) as (v & Ev & Tv & Bv); auto; try apply Va; try apply Vb.
    assert (R : forall p, 0 <= p < n -> sym_at r p = sym_of_bool (bit_at (l_val a) p && bit_at (l_val b) p) /\ sym_at r' p = sym_at r p).
    { intros p Hp. rewrite Q, Q' by exact Hp. rewrite (sym_known a p Va Ka), (sym_known b p Vb Kb). destruct (bit_at (l_val a) p), (bit_at (l_val b) p); split; reflexivity. }
    assert (K : known r). { intros p Hp. rewrite (ltyped_lw _ _ _ Hn T) in Hp. rewrite (proj1 (R p Hp)). destruct (bit_at (l_val a) p), (bit_at (l_val b) p); reflexivity. }
    exists r, r', v. split; [exact E|]. split; [exact E'|]. split; [exact Ev|]. split; [exact K|]. intros p Hp. split; [apply R; exact Hp|]. split; [apply R; exact Hp|].
    rewrite Bv by exact Hp. apply Hb; [apply (ltyped_lvec _ _ _ T)|exact K|]. apply R. exact Hp.
  - destruct (or4_main a b n) as (r & E & T & _ & Q); auto. destruct (or4_main b a n) as (r' & E' & _ & _ & Q'); auto.
    destruct (bitwise_or_same (l_val a) (l_val b) n) as (v & Ev & Tv & Bv); auto; try apply Va; try apply Vb.
    assert (R : forall p, 0 <= p < n -> sym_at r p = sym_of_bool (bit_at (l_val a) p || bit_at (l_val b) p) /\ sym_at r' p = sym_at r p).
    { intros p Hp. rewrite Q, Q' by exact Hp. rewrite (sym_known a p Va Ka), (sym_known b p Vb Kb). destruct (bit_at (l_val a) p), (bit_at (l_val b) p); split; reflexivity. }
    assert (K : known r). { intros p Hp. rewrite (ltyped_lw _ _ _ Hn T) in Hp. rewrite (proj1 (R p Hp)). destruct (bit_at (l_val a) p), (bit_at (l_val b) p); reflexivity. }
    exists r, r', v. split; [exact E|]. split; [exact E'|]. split; [exact Ev|]. split; [exact K|]. intros p Hp. split; [apply R; exact Hp|]. split; [apply R; exact Hp|].
    rewrite Bv by exact Hp. apply Hb; [apply (ltyped_lvec _ _ _ T)|exact K|]. apply R. exact Hp.
Qed.

(** * reductions *)
Lemma r_and_counter : exists a r, ltyped a 2 false /\ ltidy a /\ sym_at a 0 = SX /\ sym_at a 1 = S0 /\ logic_r_and a = Ok r /\ sym_at r 0 = SX.
Proof. exists (l2 S0 SX). eexists. repeat (split; [conc || (vm_compute; reflexivity)|]). conc. Qed.
Lemma r_or_counter : exists a r, ltyped a 2 false /\ ltidy a /\ sym_at a 0 = SX /\ sym_at a 1 = S1 /\ logic_r_or a = Ok r /\ sym_at r 0 = SX.
Proof. exists (l2 S1 SX). eexists. repeat (split; [conc || (vm_compute; reflexivity)|]). conc. Qed.
Lemma r_xor_counter : exists a r, ltyped a 3 false /\ ltidy a /\ known a /\ num (l_val a) = 0 /\ logic_r_xor a = Ok r /\ sym_at r 0 = S1.
Proof. exists (logic_of_arith 2 0 false 0). eexists. split; [conc|]. split; [conc|]. split; [apply known_of_num0; reflexivity|]. split; [reflexivity|]. split; [vm_compute; reflexivity|]. vm_compute. reflexivity. Qed.
Lemma r_xor_even l n : 2 <= n <= 64 -> Z.even n = true -> ltyped l n false -> ltidy l ->
  exists r r', logic_r_xor l = Ok r /\ logic_r_xnor l = Ok r' /\ ltyped r 1 false /\ ltyped r' 1 false /\
    sym_at r' 0 = not4 (sym_at r 0) /\ (~ known l -> sym_at r 0 = SX) /\ (known l -> sym_at r 0 = sym_of_bool (Z.odd (ones n (num (l_val l))))).
Proof.
  intros Hn Ev T D. destruct (red_xor l n Hn T D) as (r & r' & A & B & C & E & F & G & H). exists r, r'. repeat (split; [assumption|]).
  intros K. rewrite H by exact K. rewrite Z.odd_sub. rewrite <- Z.negb_even, Ev. cbn [negb]. now rewrite xorb_false_l.
Qed.
Lemma truth_counter : exists l, ltyped l 128 false /\ ltidy l /\ known l /\ sym_at l 32 = S1 /\ logic_bool l = false.
Proof.
  exists (mkLogic (mkBit 127 0 false (HB [2 ^ 32; 0])) (bit_zero 127 0 false)). split; [conc|]. split; [conc|]. split; [apply known_of_num0; reflexivity|]. conc.
Qed.

(** * unknown operands *)
Definition x32_128 := mkLogic (bit_zero 127 0 false) (mkBit 127 0 false (HB [2 ^ 32; 0])).
Definition one128 := mkLogic (mkBit 127 0 false (HB [1; 0])) (bit_zero 127 0 false).
Definition p32_128 := mkLogic (mkBit 127 0 false (HB [2 ^ 32; 0])) (bit_zero 127 0 false).
Lemma shift_counter : exists a amt r, ltyped a 128 false /\ ltyped amt 128 false /\ ltidy a /\ ltidy amt /\ sym_at a 32 = SX /\
  logic_shr a amt = Ok r /\ sym_at r 0 = S0.
Proof. exists x32_128, one128. eexists. repeat (split; [conc || (vm_compute; reflexivity)|]). vm_compute. reflexivity. Qed.
Lemma cmp_counter : exists a r, ltyped a 128 false /\ ltidy a /\ sym_at a 32 = SX /\ logic_eq a a = Ok r /\ sym_at r 0 = S1.
Proof. exists x32_128. eexists. repeat (split; [conc || (vm_compute; reflexivity)|]). vm_compute. reflexivity. Qed.
Lemma arith_counter : exists a b r, ltyped a 128 false /\ ltyped b 128 false /\ ltidy a /\ ltidy b /\ sym_at a 32 = SX /\
  logic_add a b = Ok r /\ sym_at r 0 = S1.
Proof. exists x32_128, one128. eexists. repeat (split; [conc || (vm_compute; reflexivity)|]). vm_compute. reflexivity. Qed.
Lemma div_x_counter : exists a b r, ltyped a 128 false /\ ltyped b 128 false /\ ltidy a /\ ltidy b /\ known a /\ known b /\ num (l_val b) = 2 ^ 32 /\
  logic_div a b = Ok r /\ sym_at r 0 = SX.
Proof.
  exists one128, p32_128. eexists. do 4 (split; [conc|]). do 2 (split; [apply known_of_num0; reflexivity|]). split; [reflexivity|].
  split; [vm_compute; reflexivity|vm_compute; reflexivity].
Qed.
Lemma pair_in d lop bop : In (d, lop, bop) [(false, logic_add, bit_add); (false, logic_sub, bit_sub); (false, logic_mul, bit_mul); (true, logic_div, bit_div); (true, logic_rem, bit_rem)] ->
  arith_pair d lop bop.
Proof. cbn. intros [E|[E|[E|[E|[E|[]]]]]]; injection E as <- <- <-; constructor. Qed.
Lemma arith_unknown d lop bop : In (d, lop, bop) [(false, logic_add, bit_add); (false, logic_sub, bit_sub); (false, logic_mul, bit_mul); (true, logic_div, bit_div); (true, logic_rem, bit_rem)] ->
  forall a b na nb sa sb, 1 <= na -> 1 <= nb -> ltyped a na sa -> ltyped b nb sb -> tidy (l_xz a) -> tidy (l_xz b) ->
  (na < nb -> extendable (l_val a)) -> (nb < na -> extendable (l_val b)) ->
  seen_at a (Z.max na nb) -> seen_at b (Z.max na nb) -> (sa = false \/ d = false \/ Z.max na nb <= 64) ->
  (~ known a \/ ~ known b) -> exists r, lop a b = Ok r /\ ltyped r (Z.max na nb) (sa && sb) /\ all_x r /\ ltidy r.
Proof.
  intros P a b na nb sa sb Ha Hb Ta Tb Xa Xb Ea Eb Sa Sb C U. apply pair_in in P. apply (arith_x d lop bop P a b na nb sa sb); auto. tauto.
Qed.
Lemma arith_zero lop bop : In (lop, bop) [(logic_div, bit_div); (logic_rem, bit_rem)] ->
  forall a b na nb sa sb, 1 <= na -> 1 <= nb -> ltyped a na sa -> ltyped b nb sb -> tidy (l_xz a) -> ltidy b ->
  (na < nb -> extendable (l_val a)) -> (nb < na -> extendable (l_val b)) ->
  seen_at a (Z.max na nb) -> seen_at b (Z.max na nb) -> (sa = false \/ Z.max na nb <= 64) ->
  (num (l_val b) = 0 -> exists r, lop a b = Ok r /\ ltyped r (Z.max na nb) (sa && sb) /\ all_x r) /\
  (forall v, known a -> known b -> num (l_val b) <> 0 -> (sb = false /\ visible (num (l_val b)) \/ Z.max na nb <= 64) ->
     bop (l_val a) (l_val b) = Ok v -> typed v (Z.max na nb) (sa && sb) ->
     exists r, lop a b = Ok r /\ ltyped r (Z.max na nb) (sa && sb) /\ known r /\ l_val r = v).
Proof.
  intros P a b na nb sa sb Ha Hb Ta Tb Xa [Yb Xb] Ea Eb Sa Sb C.
  assert (AP : arith_pair true lop bop). { cbn in P. destruct P as [E|[E|[]]]; injection E as <- <-; constructor. }
  split.
  - intros Z0. destruct (arith_x true lop bop AP a b na nb sa sb) as (r & A & B & D & _); auto; [tauto|]. eauto.
  - intros v Ka Kb N V E T. destruct (arith_known true lop bop AP a b na nb sa sb Ha Hb Ta Tb Xa Xb Ea Eb Sa Sb v) as (r & A & B & D & F & _); auto. exists r. auto.
Qed.
Lemma arith_defined lop bop : In (lop, bop) [(logic_add, bit_add); (logic_sub, bit_sub); (logic_mul, bit_mul)] ->
  forall a b na nb sa sb v, 1 <= na -> 1 <= nb -> ltyped a na sa -> ltyped b nb sb -> tidy (l_xz a) -> tidy (l_xz b) ->
  (na < nb -> extendable (l_val a)) -> (nb < na -> extendable (l_val b)) ->
  seen_at a (Z.max na nb) -> seen_at b (Z.max na nb) -> known a -> known b ->
  bop (l_val a) (l_val b) = Ok v -> typed v (Z.max na nb) (sa && sb) ->
  exists r, lop a b = Ok r /\ ltyped r (Z.max na nb) (sa && sb) /\ known r /\ l_val r = v.
Proof.
  intros P a b na nb sa sb v Ha Hb Ta Tb Xa Xb Ea Eb Sa Sb Ka Kb E T.
  assert (AP : arith_pair false lop bop). { cbn in P. destruct P as [Q|[Q|[Q|[]]]]; injection Q as <- <-; constructor. }
  destruct (arith_known false lop bop AP a b na nb sa sb Ha Hb Ta Tb Xa Xb Ea Eb Sa Sb v) as (r & A & B & D & F & _); auto; [discriminate|]. exists r. auto.
Qed.
Lemma lops_unknown lop bop : In (lop, bop) [(logic_shr, bit_shr); (logic_shl, bit_shl); (logic_ashr, bit_ashr)] ->
  forall a amt, lvec a -> lvec amt -> tidy (l_xz a) -> tidy (l_xz amt) -> seen a -> seen amt -> (lw a <= 64 -> lw amt <= 64) ->
  ~ known a \/ ~ known amt -> exists r, lop a amt = Ok r /\ ltyped r (lw a) (lsgn a && lsgn amt) /\ all_x r /\ ltidy r.
Proof.
  intros P a amt Va Vk Ta Tk Sa Sk C U. destruct (shift_noill (l_val a) (l_val amt) (proj1 Va) (proj1 Vk)) as (N1 & N2 & N3).
  { change (65 <= lw a \/ lw amt <= 64). destruct (Z.leb_spec 65 (lw a)); [now left|right; apply C; lia]. }
  cbn in P. destruct P as [Q|[Q|[Q|[]]]]; injection Q as <- <-; apply shift_unknown; auto; tauto.
Qed.
Lemma lcmp_unknown lop bop : In (lop, bop) [(logic_eq, bit_eq); (logic_ne, bit_ne); (logic_lt, bit_lt); (logic_gt, bit_gt); (logic_le, bit_le); (logic_ge, bit_ge)] ->
  forall a b, lvec a -> lvec b -> tidy (l_xz a) -> tidy (l_xz b) -> seen a -> seen b ->
  (~ known a \/ ~ known b -> bop (l_val a) (l_val b) <> IllFormed -> exists r, lop a b = Ok r /\ ltyped r 1 false /\ sym_at r 0 = SX) /\
  (known a -> known b -> forall c, bop (l_val a) (l_val b) = Ok c -> exists r, lop a b = Ok r /\ ltyped r 1 false /\ sym_at r 0 = sym_of_bool c).
Proof.
  intros P a b Va Vb Ta Tb Sa Sb. assert (E : lop = logic_cmp bop). { cbn in P. repeat (destruct P as [Q|P]; [injection Q as <- <-; reflexivity|]). destruct P. }
  subst lop. split.
  - intros U NI. apply cmp_unknown; auto. tauto.
  - intros Ka Kb c Ec. apply cmp_known; auto.
Qed.
Lemma brel_unknown rop bop : In (rop, bop) [(bit_gt_logic, bit_lt); (bit_lt_logic, bit_gt); (bit_ge_logic, bit_le); (bit_le_logic, bit_ge)] ->
  forall a l, vec a -> lvec l -> tidy (l_xz l) -> seen l -> bmsb a = lmsb l -> blsb a = llsb l -> bsgn a = lsgn l ->
  (~ known l -> bop (l_val l) a <> IllFormed -> rop a l = Ok false) /\
  (known l -> forall c, bop (l_val l) a = Ok c -> rop a l = Ok c).
Proof.
  intros P a l V L T S E1 E2 E3. assert (exists lop, lop = logic_cmp bop /\ rop = bit_rel_logic lop) as (lop & El & ->).
  { cbn in P. repeat (destruct P as [Q|P]; [injection Q as <- <-; eexists; split; [|reflexivity]; reflexivity|]). destruct P. }
  now apply (bit_rel_logic_spec lop bop a l).
Qed.
Lemma match_counter : exists a b r, ltyped a 4 false /\ ltidy a /\ ltyped b 4 false /\ ltidy b /\ logic_add a a = Ok r /\ ltyped r 4 false /\
  (forall p, 0 <= p < 4 -> sym_at r p = sym_at b p) /\ logic_match r b = Ok false.
Proof.
  exists (logic_of_arith 3 0 false 8), (logic_of_arith 3 0 false 0). eexists. do 4 (split; [conc|]). split; [vm_compute; reflexivity|]. split; [conc|].
  split; [|vm_compute; reflexivity]. intros p Hp. assert (p = 0 \/ p = 1 \/ p = 2 \/ p = 3) as [->|[->|[->| ->]]] by lia; reflexivity.
Qed.
Lemma lmatch_laws a b n s : 1 <= n -> ltyped a n s -> ltyped b n s -> ltidy a -> ltidy b -> (s = true -> 2 <= n <= 64) ->
  exists c, logic_match a b = Ok c /\ (c = true <-> forall p, 0 <= p < n -> sym_at a p = sym_at b p) /\
    logic_match b a = Ok c /\ logic_match a a = Ok true /\ logic_nmatch a b = Ok (negb c).
Proof.
  intros Hn Ta Tb Da Db C. destruct (lmatch a b n s Hn Ta Tb Da Db C) as (c & E & I). destruct (lmatch b a n s Hn Tb Ta Db Da C) as (c' & E' & I').
  destruct (lmatch a a n s Hn Ta Ta Da Da C) as (c'' & E'' & I''). exists c. split; [exact E|]. split; [exact I|].
  assert (c' = c). { apply eq_true_iff_eq. rewrite I, I'. split; intros H p Hp; symmetry; auto. }
  assert (c'' = true) by (apply I''; reflexivity). subst. split; [exact E'|]. split; [exact E''|]. rewrite lnmatch, E. reflexivity.
Qed.

(** * post forms *)
Lemma lpost step a n s r : 1 <= n -> ltyped a n s -> step a = Ok r -> logic_post step a = Ok (a, r).
Proof.
  intros Hn T E. unfold logic_post, logic_convert. destruct (ltyped_plain a n s Hn T) as (A & B & _). rewrite (ltyped_lsize a n s Hn T), A, B, !Z.eqb_refl, Bool.eqb_reflx.
  cbn [andb bind]. rewrite E. reflexivity.
Qed.
Lemma lstep_main step (d : Z) : In (step, d) [(logic_inc, 1); (logic_dec, -1)] -> forall a n s, 2 <= n -> ltyped a n s -> tidy (l_xz a) -> seen a ->
  exists r, step a = Ok r /\ ltyped r n s /\ tidy (l_xz r) /\ logic_post step a = Ok (a, r) /\ (~ known a -> all_x r) /\ (known a -> known r /\ num (l_val r) = (num (l_val a) + d) mod 2 ^ n).
Proof.
  intros P a n s Hn T X S. assert (exists up : bool, step = step_l up /\ d = if up then 1 else -1) as (up & -> & ->).
  { cbn in P. destruct P as [Q|[Q|[]]]; injection Q as <- <-; [exists true|exists false]; auto. }
  destruct (lstep up a n s Hn T X S) as [A B]. destruct (bit_any_set (l_xz a)) eqn:E.
  - apply (any_xz_unknown a (ltyped_lvec _ _ _ T) X S) in E. destruct (A E) as (r & Er & Tr & Xr & Yr). exists r. split; [exact Er|]. split; [exact Tr|]. split; [exact Yr|].
    split; [apply (lpost _ a n s); auto; lia|]. tauto.
  - apply (any_xz a (ltyped_lvec _ _ _ T) X S) in E. destruct (B E) as (r & Er & Tr & Yr & Kr & Nr). exists r. split; [exact Er|]. split; [exact Tr|]. split; [exact Yr|].
    split; [apply (lpost _ a n s); auto; lia|]. tauto.
Qed.

(** * concatenation and unpacking *)
Lemma concat_bit_counter : exists a b r, ltyped a 1 false /\ ltidy a /\ typed b 1 false /\ tidy b /\ sym_at a 0 = SX /\ bit_at b 0 = true /\
  logic_concat_bit a b = Ok r /\ sym_at r 0 = SZ /\ sym_at r 1 = S0.
Proof. exists logic_x, (bit0 true). eexists. repeat (split; [conc || (vm_compute; reflexivity)|]). vm_compute. reflexivity. Qed.

Fixpoint covers (l : logic) (rs : list logic) : Prop :=
  match rs with
  | [] => True
  | r :: rest => (forall p, 0 <= p < lw r -> sym_at r p = sym_at l (total (map lw rest) + p)) /\ covers l rest
  end.
Lemma concat_loop l : forall rs na acc, 1 <= na -> ltyped acc na false -> ltidy acc ->
  Forall (fun r => ltyped r (lw r) false /\ ltidy r) rs -> na + total (map lw rs) < 64 -> (na + total (map lw rs) <= 32 \/ 33 <= na) ->
  covers l rs -> (forall p, 0 <= p < na -> sym_at acc p = sym_at l (total (map lw rs) + p)) ->
  exists c, ofold logic_concat rs acc = Ok c /\ ltyped c (na + total (map lw rs)) false /\ forall p, 0 <= p < na + total (map lw rs) -> sym_at c p = sym_at l p.
Proof.
  induction rs as [|r rs IH]; intros na acc Hn T D F L C Co A.
  - exists acc. cbn [map] in *. change (total []) with 0 in *. rewrite Z.add_0_r. split; [reflexivity|]. split; [exact T|]. intros p Hp. rewrite A by exact Hp. reflexivity.
  - cbn [map] in *. rewrite total_cons in *. inversion F as [|? ? [Tr Dr] Fs]; subst. pose proof (lw_pos r) as Lr. pose proof (total_nonneg rs) as Ln. destruct Co as [Cr Co].
    destruct (lconcat acc r na (lw r)) as (c & E & Tc & Dc & Q); auto; try lia. cbn [ofold]. rewrite E. cbn [bind].
    destruct (IH (na + lw r) c) as (c' & E' & Tc' & Q'); auto; try lia.
    + intros p Hp. rewrite Q by exact Hp. destruct (Z.ltb_spec p (lw r)); [apply Cr; lia|]. rewrite A by lia. f_equal. lia.
    + exists c'. split; [exact E'|]. replace (na + (lw r + total (map lw rs))) with (na + lw r + total (map lw rs)) by lia. split; [exact Tc'|exact Q'].
Qed.
Lemma covers_of l ts : forall rs, length rs = length ts -> Forall (fun t => lsgn t = false) ts ->
  (forall pre t post, ts = pre ++ t :: post -> exists r, nth_error rs (length pre) = Some r /\ ltyped r (lw t) (lsgn t) /\ (lsgn t = false -> ltidy r) /\
      forall p, 0 <= p < lw t -> sym_at r p = sym_at l (total (map lw post) + p)) ->
  covers l rs /\ map lw rs = map lw ts /\ Forall (fun r => ltyped r (lw r) false /\ ltidy r) rs.
Proof.
  induction ts as [|t ts IH]; intros [|r rs] Len U H; try discriminate; [repeat split; constructor|]. inversion U as [|? ? Ut Us]; subst.
  destruct (IH rs) as (A & B & C); [cbn in Len; congruence|exact Us| |].
  { intros pre t' post E. destruct (H (t :: pre) t' post) as (r' & R); [now rewrite E|]. exists r'. exact R. }
  destruct (H [] t ts eq_refl) as (r' & R1 & R2 & R3 & R4). cbn in R1. injection R1 as <-. pose proof (ltyped_lw _ _ _ (lw_pos t) R2) as W.
  cbn [covers map]. rewrite W, B. split; [split; [exact R4|exact A]|]. split; [reflexivity|]. constructor; [|exact C]. rewrite Ut in R2. rewrite W. auto.
Qed.
Lemma unpack_concat l n t ts : ltyped l n false -> Forall (fun t => ltyped t (lw t) false) (t :: ts) -> total (map lw (t :: ts)) = n -> n < 64 -> (n <= 32 \/ 33 <= lw t) ->
  exists r rs c, logic_unpack l (t :: ts) = Ok (r :: rs) /\ ofold logic_concat rs r = Ok c /\ ltyped c n false /\ forall p, 0 <= p < n -> sym_at c p = sym_at l p.
Proof.
  intros T F E L C. assert (Hn : 1 <= n). { rewrite <- E. cbn [map]. rewrite total_cons. pose proof (lw_pos t). pose proof (total_nonneg ts). lia. }
  assert (U : Forall (fun t => lsgn t = false) (t :: ts)). { eapply Forall_impl; [|exact F]. intros x Hx. apply (ltyped_sgn _ _ _ Hx). }
  destruct (lunpack l n (t :: ts) Hn T) as (rs & Er & Len & H); [|left; lia|lia|].
  { rewrite Forall_forall in *. intros x Hx. unfold target. rewrite (U x Hx). auto. }
  destruct (covers_of l (t :: ts) rs Len U H) as (A & B & D). destruct rs as [|r rs]; [discriminate|].
  inversion D as [|? ? [Tr Dr] Ds]; subst. destruct A as [A0 A1]. cbn [map] in B. injection B as B0 B1. cbn [map]. cbn [map] in C, L. rewrite total_cons, <- B0, <- B1 in *.
  destruct (concat_loop l rs (lw r) r (lw_pos r)) as (c & Ec & Tc & Q); auto. exists r, rs, c. auto.
Qed.

(** * mixed-width forms with the table spelled out *)
Lemma and_mixed_main a b na nb : 1 <= na -> 1 <= nb -> na <> nb -> ltyped a na false -> ltyped b nb false -> ltidy a -> ltidy b ->
  exists r, logic_and a b = Ok r /\ ltyped r (Z.max na nb) false /\ ltidy r /\ forall p, 0 <= p < Z.max na nb ->
    sym_at r p = match (if p <? na then sym_at a p else S0), (if p <? nb then sym_at b p else S0) with
                 | SX, S0 => SX | SZ, S1 => S1 | SZ, SZ => SZ | s, t => and4 s t end.
Proof.
  intros Ha Hb N Ta Tb Da Db. destruct (and_mixed a b na nb Ha Hb N Ta Tb Da Db) as (r & E & T & D & Q). exists r. do 3 (split; [assumption|]).
  intros p Hp. rewrite Q by exact Hp. destruct (if p <? na then _ else _), (if p <? nb then _ else _); reflexivity.
Qed.
Lemma or_mixed_main a b na nb : 1 <= na -> 1 <= nb -> na <> nb -> ltyped a na false -> ltyped b nb false -> ltidy a -> ltidy b ->
  exists r, logic_or a b = Ok r /\ ltyped r (Z.max na nb) false /\ ltidy r /\ forall p, 0 <= p < Z.max na nb ->
    sym_at r p = match (if p <? na then sym_at a p else S0), (if p <? nb then sym_at b p else S0) with
                 | SX, S0 => S1 | SZ, S1 => SX | s, t => or4 s t end.
Proof.
  intros Ha Hb N Ta Tb Da Db. destruct (or_mixed a b na nb Ha Hb N Ta Tb Da Db) as (r & E & T & D & Q). exists r. do 3 (split; [assumption|]).
  intros p Hp. rewrite Q by exact Hp. destruct (if p <? na then _ else _), (if p <? nb then _ else _); reflexivity.
Qed.

(** * concrete cases *)
Lemma update_counter : exists x op, ltyped x 70 false /\ ltidy x /\ ltyped op 70 false /\ ltidy op /\ logic_update_r x 69 0 op = UB.
Proof.
  exists x70, (mkLogic (bit_zero 69 0 false) (mkBit 69 0 false (HB [0; 32]))). do 4 (split; [conc|]). vm_compute. reflexivity.
Qed.
Definition v4 (n v m : Z) : logic := mkLogic (bit_of_native (n - 1) 0 false v) (bit_of_native (n - 1) 0 false m).
Ltac z4 p := assert (p = 0 \/ p = 1 \/ p = 2 \/ p = 3) as [->|[->|[->| ->]]] by lia.
Lemma mixed_xor_ex : ltyped (v4 4 9 0) 4 false /\ ltyped (v4 2 2 0) 2 false /\ ltidy (v4 4 9 0) /\ ltidy (v4 2 2 0) /\
  (forall p, 0 <= p < 4 ->
     match (if p <? 4 then sym_at (v4 4 9 0) p else S0), (if p <? 2 then sym_at (v4 2 2 0) p else S0) with
     | S1, S1 | S1, SX | S1, SZ | SX, S0 | SX, S1 => False | _, _ => True end).
Proof. do 4 (split; [conc|]). intros p Hp. z4 p; vm_compute; exact I. Qed.
Lemma red_and_ex : ltyped (v4 4 7 8) 4 false /\ ltyped (mkLogic (mkBit 69 0 false (HB [0; 32])) (mkBit 69 0 false (HB [8; 0]))) 70 false /\
  (forall p q, 0 <= p < q -> q < 4 -> unknown (sym_at (v4 4 7 8) p) = true -> sym_at (v4 4 7 8) q <> S0) /\
  (exists p, 0 <= p < 4 /\ unknown (sym_at (v4 4 7 8) p) = true).
Proof.
  do 2 (split; [conc|]). split; [|exists 3; split; [lia|reflexivity]]. intros p q Hp Hq. z4 q; z4 p; try lia; vm_compute; discriminate.
Qed.
Lemma red_or_ex : ltyped (v4 4 4 2) 4 false /\ ltyped (v4 4 2 8) 4 false /\
  (forall p q, 0 <= p < q -> q < 4 -> unknown (sym_at (v4 4 2 8) p) = true -> sym_at (v4 4 2 8) q <> S1).
Proof. do 2 (split; [conc|]). intros p q Hp Hq. z4 q; z4 p; try lia; vm_compute; discriminate. Qed.
Definition x1 := v4 8 166 48.
Definition y1 := v4 8 166 0.
Definition y2 := v4 8 13 0.
Definition x1_70 := mkLogic (mkBit 69 0 false (HB [0; 32])) (mkBit 69 0 false (HB [8; 0])).
Lemma x1_unknown : ~ known x1. Proof. intros K. specialize (K 4 ltac:(vm_compute; split; congruence)). discriminate. Qed.
Lemma x70_unknown : ~ known x1_70. Proof. intros K. specialize (K 3 ltac:(vm_compute; split; congruence)). discriminate. Qed.
Lemma vis_of z : z mod 2 ^ 32 <> 0 -> visible z.
Proof. intros H L. exfalso. apply H. specialize (L 0 ltac:(lia)). change (2 ^ (64 * 0)) with 1 in L. now rewrite Z.div_1_r in L. Qed.
Lemma vis_0 : visible 0. Proof. intros _. reflexivity. Qed.
Ltac vis := first [left; vm_compute; discriminate | right; apply vis_of; vm_compute; discriminate | right; exact vis_0 | apply vis_of; vm_compute; discriminate].
Lemma truth_ex : lvec x1 /\ ltidy x1 /\ lw x1 <= 64 /\ lvec one128 /\ ltidy one128 /\ seen one128 /\ visible (num (l_val one128)).
Proof. do 5 (split; [conc|]). split; vis. Qed.
Lemma shift_ex : lvec x1 /\ lvec (v4 3 5 0) /\ tidy (l_xz x1) /\ ltidy (v4 3 5 0) /\ seen x1 /\ seen (v4 3 5 0) /\ ~ known x1 /\ known (v4 3 5 0) /\ known y1 /\
  lvec x1_70 /\ tidy (l_xz x1_70) /\ seen x1_70 /\ ~ known x1_70 /\ value (l_val (v4 3 5 0)) = 5.
Proof.
  do 4 (split; [conc|]). do 2 (split; [vis|]). split; [exact x1_unknown|]. do 2 (split; [apply known_of_num0; reflexivity|]). do 2 (split; [conc|]).
  split; [vis|]. split; [exact x70_unknown|reflexivity].
Qed.
Lemma cmp_ex : lvec x1 /\ lvec y2 /\ tidy (l_xz x1) /\ seen x1 /\ ~ known x1 /\ known y2 /\ bit_lt (l_val x1) (l_val y2) = Ok false /\ bit_gt (l_val y1) (l_val y2) = Ok true.
Proof. do 3 (split; [conc|]). split; [vis|]. split; [exact x1_unknown|]. split; [apply known_of_num0; reflexivity|]. conc. Qed.
Lemma arith_ex : ltyped x1 8 false /\ ltyped x1_70 70 false /\ ltidy x1 /\ ltidy x1_70 /\ extendable (l_val x1) /\ seen_at x1 70 /\ seen_at x1_70 70 /\ ~ known x1 /\
  (exists v, bit_rem (l_val y1) (l_val y2) = Ok v /\ typed v 8 false) /\ num (l_val y2) <> 0.
Proof.
  do 4 (split; [conc|]). split; [split; [conc|discriminate]|]. do 2 (split; [vis|]). split; [exact x1_unknown|]. split; [|discriminate].
  eexists. split; [vm_compute; reflexivity|conc].
Qed.
Lemma step_ex : ltyped y1 8 false /\ tidy (l_xz y1) /\ seen y1 /\ known y1 /\ ltyped x1_70 70 false /\ tidy (l_xz x1_70) /\ seen x1_70.
Proof. do 2 (split; [conc|]). split; [vis|]. split; [apply known_of_num0; reflexivity|]. do 2 (split; [conc|]). vis. Qed.
Lemma num_ex : lvec x1 /\ tidy (l_xz x1) /\ seen x1 /\ extendable (l_val x1) /\ extendable (l_val x1_70) /\ lvec x1_70.
Proof. do 2 (split; [conc|]). split; [vis|]. do 2 (split; [split; [conc|discriminate]|]). conc. Qed.
