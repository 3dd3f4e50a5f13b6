(** The 4-state arithmetic, shifts and comparisons meet the reference machine of SpecFour.v. *)
From Coq Require Import ZArith List Bool Lia Zify ZifyBool.
From Verif Require Import Cpp BigNum Bit Logic Spec SpecExact SpecMachine SpecWide SpecFour ZBits Words BigNumProofs BigArith BitProofs BitSlice BitExt BitOps BitShift BitArith BitCmp BitMain LogicProofs LogicOps MachineProofs MachineProofs2 MachineProofs3 MachineProofs4 MachineProofs5 WideProofs WideProofs2 WideProofs3 WideProofs4 Reach ReachProofs ReachProofs2 ReachProofs4.
Import ListNotations.
Open Scope Z_scope.
Local Ltac Zify.zify_post_hook ::= idtac.

(** * objects *)
Lemma size_pos m l : 1 <= width m l. Proof. unfold width. lia. Qed.
Lemma store_0 n s : store n s 0 = 0.
Proof. unfold store, wrap, storage. destruct (n =? 1); [reflexivity|]. destruct s; repeat (destruct (_ <=? _)); reflexivity. Qed.
Lemma zero_object m l s : bit_zero m l s = object m l s 0.
Proof.
  unfold bit_zero, object, native_num. change (vsize m l) with (width m l). cbn zeta. pose proof (size_pos m l) as P. destruct (Z.leb_spec (width m l) 64).
  - rewrite store_0. reflexivity.
  - do 2 apply f_equal. apply big_eq; [lia|apply zero_wfn; lia|]. rewrite Z.mod_0_l by (pose proof (pow2_pos (capacity (width m l)) ltac:(pose proof (capacity_ge (width m l) P); lia)); lia).
    apply bn_zero_num. 
Qed.
Lemma as_object b : vec b -> b = object (bmsb b) (blsb b) (bsgn b) (stored b).
Proof.
  intros V. destruct (vec_cases b V) as [(x & E & N & I & S1) | (x & E & N & I & S1)].
  - rewrite object_small by (unfold bw in N; lia). rewrite S1, store_in by (exact I || (unfold bw in *; lia)). destruct b as [m l s h]. cbn in *. subst h. reflexivity.
  - rewrite object_wide by (unfold bw in N; lia). rewrite S1, words_of_self by (exact I || (unfold bw in *; lia)). destruct b as [m l s h]. cbn in *. subst h. reflexivity.
Qed.
Lemma tidy_object b : vec b -> tidy b -> bsgn b = false -> b = object (bmsb b) (blsb b) false (num b).
Proof. intros V T F. rewrite (as_object b V) at 1. rewrite F, (num_of_tidy b T F). reflexivity. Qed.
Lemma mask_object m l : declarable m l -> bit_mask m l false = object m l false (2 ^ width m l - 1).
Proof.
  intros (A & B & C). destruct (LogicProofs.mask_vec m l A B C) as (V & M & L & F & N & T). rewrite (tidy_object _ V T F), N, M, L. reflexivity.
Qed.
Lemma default_object m l s : declarable m l -> logic_default m l s = object4 m l s 0 (2 ^ width m l - 1).
Proof. intros D. unfold logic_default, object4. rewrite zero_object, mask_object by exact D. reflexivity. Qed.
Lemma default_unknown n s : 1 <= n < 2 ^ 31 -> logic_default (n - 1) 0 s = all_unknown n s.
Proof. intros H. rewrite default_object by (apply decl_plain; exact H). rewrite width_n by lia. reflexivity. Qed.
Lemma x_single : logic_x = single SX. Proof. reflexivity. Qed.
Lemma bool_single b : logic_of_bool b = single (sym_of_bool b). Proof. destruct b; reflexivity. Qed.

(** * widening *)
Lemma extend_cases x m : vec x -> bw x <= m < 2 ^ 31 ->
  (bit_extend x m = IllFormed /\ bw x = m /\ own_type x = false) \/
  (exists r, bit_extend x m = Ok r /\ vec r /\ bmsb r = m - 1 /\ blsb r = 0 /\ bsgn r = bsgn x /\ bw r = m /\ bit_any_set r = seems_nonzero x m /\
     (stored r = if m <=? 64 then stored x else widened x m) /\ (bw x < m \/ own_type x = true)).
Proof.
  intros V H. pose proof (bw_pos x) as P. unfold seems_nonzero. destruct (Z.leb_spec m 64) as [C | C].
  - assert (G : bit_extend x m = if (bw x <? m) || own_type x then Ok (vector m (bsgn x) (stored x)) else IllFormed).
    { rewrite extend_any by (exact V || lia). unfold any_resize, small, resized, own_type. replace (bw x <=? 64) with true by lia. replace (m <=? 64) with true by lia. cbn [andb].
      destruct (Z.ltb_spec (bw x) m); cbn [orb]; [reflexivity|]. replace (m =? bw x) with true by lia. reflexivity. }
    destruct ((bw x <? m) || own_type x) eqn:Q; [right|left].
    + assert (ST : store m (bsgn x) (stored x) = stored x) by (apply store_in; [lia|apply stored_in; [exact V|lia]]).
      eexists. split; [exact G|]. pose proof (extend_vec x m _ V ltac:(lia) G) as (VR & MR & LR & SR).
      assert (WR : bw (vector m (bsgn x) (stored x)) = m) by (unfold vector, bw, width; cbn; lia).
      repeat (split; [assumption|]). split; [|split; [unfold vector, stored; cbn [bval]; exact ST|apply orb_prop in Q as [Q | Q]; [left; apply Z.ltb_lt; exact Q|right; exact Q]]].
      rewrite any_set_any by exact VR. unfold any_true, small. rewrite WR. replace (m <=? 64) with true by lia. unfold vector, stored at 1. cbn [bval]. rewrite ST. reflexivity.
    + split; [exact G|]. apply orb_false_elim in Q as [Q1 Q2]. apply Z.ltb_ge in Q1. split; [lia|exact Q2].
  - pose proof (extend_wide x m V ltac:(lia) ltac:(lia)) as G. destruct ((bw x <? m) || own_type x) eqn:Q; [right|left].
    + eexists. split; [exact G|]. pose proof (extend_vec x m _ V ltac:(lia) G) as (VR & MR & LR & SR).
      assert (WR : bw (vec_of m (bsgn x) (widened x m)) = m) by (apply vec_of_bw; lia).
      assert (ST : stored (vec_of m (bsgn x) (widened x m)) = widened x m) by (rewrite stored_vec_of by lia; apply Z.mod_small; apply widened_range; (exact V || lia)).
      repeat (split; [assumption|]). split; [|split; [exact ST|apply orb_prop in Q as [Q | Q]; [left; apply Z.ltb_lt; exact Q|right; exact Q]]].
      rewrite any_set_any by exact VR. unfold any_true, small. rewrite WR. replace (m <=? 64) with false by lia. rewrite ST. reflexivity.
    + split; [exact G|]. apply orb_false_elim in Q as [Q1 Q2]. apply Z.ltb_ge in Q1. split; [lia|exact Q2].
Qed.
Lemma seems_own x : vec x -> bit_any_set x = seems_nonzero x (bw x).
Proof.
  intros V. rewrite any_set_any by exact V. unfold any_true, small, seems_nonzero, widened. rewrite Z.eqb_refl. destruct (_ <=? _); reflexivity.
Qed.

(** * arithmetic *)
Lemma lw_xz a : lvec a -> bw (l_xz a) = lw a. Proof. apply lvec_bw. Qed.
Lemma own_mask a : lvec a -> own_type (l_xz a) = plain_range a.
Proof. intros (_ & _ & M & L & S1). unfold own_type, plain_range, llsb, lmsb. rewrite S1, M, L. reflexivity. Qed.
Lemma of_bit_certain n s r : vec r -> bmsb r = n - 1 -> blsb r = 0 -> bsgn r = s -> logic_of_bit (n - 1) 0 s r = Ok (certain r).
Proof.
  intros V M L S1. unfold logic_of_bit, bit_convert, certain. rewrite M, L, S1, !Z.eqb_refl, Bool.eqb_reflx. cbn [andb requires bind]. rewrite zero_object. reflexivity.
Qed.
Lemma arith_tail (d : bool) (c : bool) n s (r : outcome bit) : 1 <= n < 2 ^ 31 -> (forall x, r = Ok x -> vec x /\ bmsb x = n - 1 /\ blsb x = 0 /\ bsgn x = s) ->
  (if c then match r with IllFormed => IllFormed | _ => Ok (logic_default (n - 1) 0 s) end else let! x := r in logic_of_bit (n - 1) 0 s x) =
  unless c (all_unknown n s) (omap certain r).
Proof.
  intros H G. rewrite default_unknown by exact H. destruct r as [x| | | |]; cbn [bind omap unless]; destruct c; try reflexivity.
  destruct (G x eq_refl) as (V & M & L & S1). rewrite of_bit_certain by assumption. reflexivity.
Qed.
Definition picky (same : bit -> bit -> outcome bit) : Prop := forall a b, same_size_op (bsize a) b = false -> same a b = IllFormed.
Lemma picky_bin f g : picky (bit_bin f g).
Proof. intros a b H. unfold bit_bin. cbn zeta. rewrite H. reflexivity. Qed.
Lemma arith_four d same a b : good_same same -> picky same -> lvec a -> lvec b -> logic_arith d (bit_arith same) a b = four_arith d (bit_arith same) a b.
Proof.
  intros G P La Lb. pose proof La as (Va & Xa & _). pose proof Lb as (Vb & Xb & _). pose proof (good_arith same G) as GA.
  destruct (vec_facts _ Va) as (_ & _ & Wa). destruct (vec_facts _ Vb) as (_ & _ & Wb). fold (lw a) in Wa. fold (lw b) in Wb.
  unfold logic_arith, four_arith. change (lsize a) with (lw a). change (lsize b) with (lw b). cbn zeta. unfold widths_ok.
  destruct (Z.eqb_spec (lw a) (lw b)) as [E | E]; cbn [orb negb].
  - replace (Z.max (lw a) (lw b)) with (lw a) by lia. unfold logic_arith_same, l_same_size_op. cbn zeta. change (lsize a) with (lw a).
    assert (B : bit_arith same (l_val a) (l_val b) = same (l_val a) (l_val b)) by (unfold bit_arith; change (bsize (l_val a)) with (lw a); change (bsize (l_val b)) with (lw b); rewrite E, Z.eqb_refl; reflexivity).
    destruct (same_size_op (lw a) (l_val b)) eqn:Q; cbn [requires].
    + unfold doubt_at. rewrite !seems_own by assumption. rewrite !lw_xz by assumption. change (bw (l_val b)) with (lw b). rewrite <- E. apply arith_tail; [exact d|lia|].
      intros x Hx. destruct (GA _ _ _ Va Vb Hx) as (V & M & L & S1). fold (lw a) (lw b) in M. replace (Z.max (lw a) (lw b)) with (lw a) in M by lia. auto.
    + rewrite B, (P (l_val a) (l_val b) Q). reflexivity.
  - set (m := Z.max (lw a) (lw b)) in *. unfold logic_mixed. cbn zeta. change (lsize a) with (lw a). change (lsize b) with (lw b). fold m.
    assert (B : bit_arith same (l_val a) (l_val b) = bit_mixed same (l_val a) (l_val b)).
    { unfold bit_arith. change (bsize (l_val a)) with (lw a). change (bsize (l_val b)) with (lw b). replace (lw a =? lw b) with false by lia. reflexivity. }
    rewrite B. unfold bit_mixed. change (bsize (l_val a)) with (lw a). change (bsize (l_val b)) with (lw b). cbn zeta. fold m.
    unfold logic_extend. change (lsize a) with (lw a). change (lsize b) with (lw b). replace (lw a <=? m) with true by lia. replace (lw b <=? m) with true by lia. cbn [requires].
    assert (W : (if lw a <? lw b then b else a) = a /\ lw a = m /\ lw b < m \/ (if lw a <? lw b then b else a) = b /\ lw b = m /\ lw a < m) by (destruct (Z.ltb_spec (lw a) (lw b)); [right|left]; (split; [reflexivity|lia])).
    pose proof (lw_xz a La) as XA. pose proof (lw_xz b Lb) as XB. pose proof (own_mask a La) as OA. pose proof (own_mask b Lb) as OB.
    destruct (extend_cases (l_val a) m Va ltac:(fold (lw a); lia)) as [(G1 & E1 & O1) | (va & G1 & Vva & Mva & Lva & Sva & Wva & Tva & STva & Qva)]; rewrite ?G1; cbn [bind];
      [destruct (negb _); reflexivity|].
    destruct (extend_cases (l_xz a) m Xa ltac:(lia)) as [(G2 & E2 & O2) | (ma & G2 & Vma & Mma & Lma & Sma & Wma & Tma & STma & Qma)]; rewrite ?G2; cbn [bind].
    { destruct W as [(-> & U1 & U2) | (_ & U1 & U2)]; [|exfalso; lia]. rewrite <- OA, O2. reflexivity. }
    destruct (extend_cases (l_val b) m Vb ltac:(fold (lw b); lia)) as [(G3 & E3 & O3) | (vb & G3 & Vvb & Mvb & Lvb & Svb & Wvb & Tvb & STvb & Qvb)]; rewrite ?G3; cbn [bind];
      [destruct (negb _); reflexivity|].
    destruct (extend_cases (l_xz b) m Xb ltac:(lia)) as [(G4 & E4 & O4) | (mb & G4 & Vmb & Mmb & Lmb & Smb & Wmb & Tmb & STmb & Qmb)]; rewrite ?G4; cbn [bind].
    { destruct W as [(_ & U1 & U2) | (-> & U1 & U2)]; [exfalso; lia|]. rewrite <- OB, O4. reflexivity. }
    assert (O : plain_range (if lw a <? lw b then b else a) = true) by (destruct W as [(-> & U1 & U2) | (-> & U1 & U2)]; [rewrite <- OA; destruct Qma as [Q | Q]|rewrite <- OB; destruct Qmb as [Q | Q]]; (exact Q || (exfalso; lia))).
      rewrite O. cbn [negb].
      unfold logic_arith_same. cbn zeta. unfold lsize, lsgn, l_same_size_op, same_size_op. cbn [l_val l_xz].
      change (bsize va) with (bw va). change (bsize vb) with (bw vb). rewrite Wva, Wvb, Z.eqb_refl. replace (blsb vb <=? bmsb vb) with true by lia. cbn [andb requires].
      rewrite Tma, Tmb, Tvb, Sva, Svb. unfold doubt_at.
      assert (R : bit_arith same va vb = same va vb) by (unfold bit_arith; change (bsize va) with (bw va); change (bsize vb) with (bw vb); rewrite Wva, Wvb, Z.eqb_refl; reflexivity).
      rewrite R. apply (arith_tail d); [lia|]. intros x Hx. destruct (G _ _ _ Vva Vvb Hx) as (_ & V & M & L & S1). rewrite Wva in M. rewrite Sva, Svb in S1. auto.
Qed.
