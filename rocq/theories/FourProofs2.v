(** 4-state shifts, comparisons, unary operators, positions, slices, changes of width and assignment meet the reference machine of SpecFour.v. *)
From Coq Require Import ZArith List Bool Lia Zify ZifyBool.
From Verif Require Import Cpp BigNum Bit Logic Spec SpecExact SpecMachine SpecWide SpecFour ZBits Words BigNumProofs BigArith BitProofs BitSlice BitExt BitOps BitShift BitArith BitCmp BitMain LogicProofs LogicOps LogicRed MachineProofs MachineProofs2 MachineProofs3 MachineProofs4 MachineProofs5 WideProofs WideProofs2 WideProofs3 WideProofs4 Reach ReachProofs ReachProofs2 ReachProofs4 FourProofs.
Import ListNotations.
Open Scope Z_scope.
Local Ltac Zify.zify_post_hook ::= idtac.

Lemma lv_val a : lvec a -> vec (l_val a). Proof. intros L. apply L. Qed.
Lemma lv_xz a : lvec a -> vec (l_xz a). Proof. intros L. apply L. Qed.
Lemma doubt_any a : lvec a -> bit_any_set (l_xz a) = doubtful a.
Proof. intros L. apply any_set_any. apply L. Qed.

(** * arithmetic *)
Lemma unless_eq {A} c (x : A) r r' : r = r' -> unless c x r = unless c x r'. Proof. intros ->. reflexivity. Qed.
Lemma arith_ref d op f a b : (forall x y, vec x -> vec y -> op x y = f x y) -> lvec a -> lvec b -> four_arith d op a b = four_arith d f a b.
Proof. intros H La Lb. unfold four_arith. cbn zeta. destruct (negb _); [reflexivity|]. rewrite H by (apply lv_val; assumption). reflexivity. Qed.
Lemma add_four a b : lvec a -> lvec b -> logic_add a b = four_arith false any_sum a b.
Proof.
  intros La Lb. rewrite <- (arith_ref false bit_add) by (assumption || (intros; apply add_any; assumption)). apply (arith_four false bit_add_same); try assumption; [|apply picky_bin].
  apply good_bin. intros n x y z Hn Wx Wy E. injection E as <-. apply add_wfn; assumption.
Qed.
Lemma sub_four a b : lvec a -> lvec b -> logic_sub a b = four_arith false any_difference a b.
Proof.
  intros La Lb. rewrite <- (arith_ref false bit_sub) by (assumption || (intros; apply sub_any; assumption)). apply (arith_four false bit_sub_same); try assumption; [|apply picky_bin].
  apply good_bin. intros n x y z Hn Wx Wy E. injection E as <-. apply sub_wfn; assumption.
Qed.
Lemma mul_four a b : lvec a -> lvec b -> logic_mul a b = four_arith false any_product a b.
Proof.
  intros La Lb. rewrite <- (arith_ref false bit_mul) by (assumption || (intros; apply mul_any; assumption)). apply (arith_four false bit_mul_same); try assumption; [|apply picky_bin].
  apply good_bin. intros n x y z Hn Wx Wy E. apply (mul_wfn n x y z Hn E).
Qed.
Lemma div_four a b : lvec a -> lvec b -> logic_div a b = four_arith true any_quotient a b.
Proof.
  intros La Lb. rewrite <- (arith_ref true bit_div) by (assumption || (intros; apply div_any; assumption)). apply (arith_four true bit_div_same); try assumption.
  - intros x y r V U H. unfold bit_div_same in H. revert H. apply good_bin; try assumption.
    intros n u v z Hn Wx Wy E. inv_ok E. destruct a0 as [q t]. injection E as <-. apply (div_wfn n _ u _ v q t Hn Wx E0).
  - intros x y H. apply picky_bin. exact H.
Qed.
Lemma rem_four a b : lvec a -> lvec b -> logic_rem a b = four_arith true any_remainder a b.
Proof.
  intros La Lb. rewrite <- (arith_ref true bit_rem) by (assumption || (intros; apply rem_any; assumption)). apply (arith_four true bit_rem_same); try assumption.
  - intros x y r V U H. unfold bit_rem_same in H. revert H. apply good_bin; try assumption.
    intros n u v z Hn Wx Wy E. inv_ok E. destruct a0 as [q t]. injection E as <-. apply (div_wfn n _ u _ v q t Hn Wx E0).
  - intros x y H. apply picky_bin. exact H.
Qed.

(** * shifts *)
Lemma shift_four op f narrow g a k : (forall x, vec x -> op x (l_val k) = f x (l_val k)) -> (forall x y, f x y = any_shift narrow (g x) x y) ->
  (forall x y, narrow x y <> IllFormed) -> lvec a -> lvec k -> logic_shift op a k = four_shift f a k.
Proof.
  intros O F N La Lk. destruct (vec_facts _ (lv_val a La)) as (_ & _ & W). fold (lw a) in W. unfold logic_shift, four_shift. cbn zeta. change (lsize a) with (lw a). rewrite default_unknown by lia. rewrite !doubt_any, orb_comm by assumption.
  rewrite !O by (apply lv_val || apply lv_xz; exact La). rewrite !F. unfold any_shift. assert (S1 : small (l_xz a) = small (l_val a)) by (unfold small; rewrite lw_xz by exact La; reflexivity). rewrite S1.
  destruct (small (l_val a)); [destruct (small (l_val k))|]; cbn [bind unless]; try (destruct (_ || _); reflexivity).
  pose proof (N (l_val a) (l_val k)) as N1. pose proof (N (l_xz a) (l_val k)) as N2.
  destruct (narrow (l_val a) (l_val k)) as [v| | | |]; cbn [bind unless]; try (destruct (_ || _); (reflexivity || contradiction)); try contradiction.
  destruct (narrow (l_xz a) (l_val k)); cbn [bind]; try contradiction; destruct (_ || _); reflexivity.
Qed.
Lemma shl_four a k : lvec a -> lvec k -> logic_shl a k = four_shift any_left a k.
Proof.
  intros La Lk. apply (shift_four _ _ shifted_left (fun a z => (stored a * 2 ^ z) mod 2 ^ bw a)); try assumption; [intros; apply shl_any; (assumption || apply Lk)|reflexivity|].
  intros x y. unfold shifted_left. destruct (shiftable x y); discriminate.
Qed.
Lemma shr_four a k : lvec a -> lvec k -> logic_shr a k = four_shift any_right a k.
Proof.
  intros La Lk. apply (shift_four _ _ shifted_right (fun a z => num a / 2 ^ z)); try assumption; [intros; apply shr_any; (assumption || apply Lk)|reflexivity|].
  intros x y. unfold shifted_right. cbn zeta. destruct (_ =? _); destruct (_ && _); discriminate.
Qed.
Lemma ashr_four a k : lvec a -> lvec k -> logic_ashr a k = four_shift any_arith a k.
Proof.
  intros La Lk. apply (shift_four _ _ shifted_arith (fun a z => if bsgn a then let r := (snum a / 2 ^ z) mod 2 ^ bw a in if z <? bw a then Z.clearbit r (bw a - 1 - z) else r else num a / 2 ^ z));
    try assumption; [intros; apply ashr_any; (assumption || apply Lk)|reflexivity|].
  intros x y. unfold shifted_arith. destruct (shiftable x y); discriminate.
Qed.

(** * comparisons *)
Lemma cmp_four op f a b : (forall x y, vec x -> vec y -> op x y = f x y) -> lvec a -> lvec b -> logic_cmp op a b = four_compare f a b.
Proof.
  intros O La Lb. unfold logic_cmp, four_compare. rewrite !doubt_any, O by (assumption || apply lv_val; assumption).
  destruct (f (l_val a) (l_val b)) as [r| | | |]; cbn [bind omap unless]; destruct (_ || _); try reflexivity. rewrite bool_single. reflexivity.
Qed.
Lemma eq_four a b : lvec a -> lvec b -> logic_eq a b = four_compare any_equal a b.
Proof. apply cmp_four. exact eq_any. Qed.
Lemma ne_four a b : lvec a -> lvec b -> logic_ne a b = four_compare (fun x y => omap negb (any_equal x y)) a b.
Proof. apply cmp_four. exact ne_any. Qed.
Lemma lt_four a b : lvec a -> lvec b -> logic_lt a b = four_compare any_less a b.
Proof. apply cmp_four. exact lt_any. Qed.
Lemma le_four a b : lvec a -> lvec b -> logic_le a b = four_compare any_less_equal a b.
Proof. apply cmp_four. exact le_any. Qed.
Lemma gt_four a b : lvec a -> lvec b -> logic_gt a b = four_compare any_greater a b.
Proof. apply cmp_four. exact gt_any. Qed.
Lemma ge_four a b : lvec a -> lvec b -> logic_ge a b = four_compare any_greater_equal a b.
Proof. apply cmp_four. exact ge_any. Qed.
Lemma equal_cases a b : (exists r, any_equal a b = Ok r) \/ any_equal a b = IllFormed.
Proof.
  unfold any_equal. cbn zeta. destruct (_ && _); [left; eexists; reflexivity|]. destruct (small a); [left; eexists; reflexivity|]. destruct (small b); [left; eexists; reflexivity|].
  destruct (both_signed a b); [|left; eexists; reflexivity]. destruct (_ <? _); [left; eexists; reflexivity|right; reflexivity].
Qed.
Lemma match_four a b : lvec a -> lvec b -> logic_match a b = four_match a b.
Proof.
  intros La Lb. unfold logic_match, four_match. rewrite !eq_any by (apply lv_val || apply lv_xz; assumption).
  destruct (equal_cases (l_val a) (l_val b)) as [(r & ->) | ->]; [|reflexivity]. cbn [bind].
  destruct (equal_cases (l_xz a) (l_xz b)) as [(q & ->) | ->]; destruct r; reflexivity.
Qed.

(** * logical not, unary minus and plus, ++ and -- *)
Lemma lnot_four a : lvec a -> logic_lnot a = four_false a.
Proof. intros L. unfold logic_lnot, four_false. rewrite doubt_any, any_set_any by (assumption || apply L). destruct (doubtful a); [reflexivity|]. destruct (any_true (l_val a)); reflexivity. Qed.
Lemma bool_four a : lvec a -> logic_bool a = four_true a.
Proof. intros L. unfold logic_bool, four_true. rewrite doubt_any, any_set_any by (assumption || apply L). reflexivity. Qed.
Lemma unknown_rewritten a : lvec a -> logic_default (lmsb a) (llsb a) (lsgn a) = rewritten4 a 0 (2 ^ lw a - 1).
Proof. intros L. rewrite default_object by (apply decl_l; exact L). reflexivity. Qed.
Lemma plus_four a : lvec a -> logic_plus a = four_plus a.
Proof. intros L. unfold logic_plus, four_plus. rewrite doubt_any, unknown_rewritten by exact L. reflexivity. Qed.
Lemma store_store n s z : 1 <= n -> store n s (store n s z) = store n s z.
Proof.
  intros H. unfold store. destruct (n =? 1); [destruct (z =? 0); reflexivity|].
  assert (P : 0 < 2 ^ storage n) by (unfold storage; repeat destruct (_ <=? _); reflexivity).
  unfold wrap. destruct s; [|apply Z.mod_mod; lia]. rewrite Z.sub_add, Z.mod_mod by lia. reflexivity.
Qed.
Lemma object_again m l s m' l' z : width m' l' = width m l -> object m l s (stored (object m' l' s z)) = object m l s z.
Proof.
  intros E. unfold object. cbn zeta. rewrite E. pose proof (size_pos m l) as P. destruct (width m l <=? 64); unfold stored; cbn [bval].
  - rewrite store_store by exact P. reflexivity.
  - do 2 apply f_equal. apply words_of_eq; [exact P|]. rewrite words_of_num by exact P. apply Z.mod_mod. pose proof (pow2_pos (capacity (width m l)) ltac:(pose proof (capacity_ge (width m l) P); lia)). lia.
Qed.
Lemma stored_object_vec b : vec b -> rewritten b (stored b) = b.
Proof. intros V. symmetry. apply as_object. exact V. Qed.
Lemma assign_same d a : vec d -> vec a -> bw a = bw d -> bit_assign d a = Ok (rewritten d (stored a)).
Proof.
  intros Vd Va E. rewrite assign_any by assumption. unfold any_assign, small. rewrite E, Z.eqb_refl. destruct (bw d <=? 64); reflexivity.
Qed.
Lemma rewritten_object m l s z : rewritten (object m l s 0) z = object m l s z. Proof. reflexivity. Qed.
Lemma object_fits b m l s : vec b -> bsgn b = s -> width m l = bw b -> bmsb b = m -> blsb b = l -> object m l s (stored b) = b.
Proof. intros V <- _ <- <-. symmetry. apply as_object. exact V. Qed.
Lemma neg_four a : lvec a -> logic_neg a = four_minus a.
Proof.
  intros L. destruct (lvec_is a L) as [(V & M & N & S1) _]. unfold logic_neg, four_minus. rewrite doubt_any, unknown_rewritten, neg_any by (assumption || apply L). cbn zeta.
  assert (G : forall v, any_minus (l_val a) = Ok v -> vec v /\ bmsb v = bmsb (l_val a) /\ blsb v = blsb (l_val a) /\ bsgn v = bsgn (l_val a)).
  { intros v. unfold any_minus, negated. destruct (small (l_val a)) eqn:Q; [|discriminate]. destruct (_ && _); [discriminate|]. intros E. injection E as <-.
    split; [|auto]. rewrite <- rewritten_small by (unfold small in Q; lia). apply rewritten_vec. exact V. }
  destruct (any_minus (l_val a)) as [v| | | |]; cbn [bind omap unless]; destruct (doubtful a); try reflexivity.
  destruct (G v eq_refl) as (Vv & Mv & Lv & Sv). unfold logic_of_arith. cbn [l_val l_xz]. rewrite zero_object.
  assert (D : declarable (lmsb a) (llsb a)) by (apply decl_l; exact L). destruct (is_arith (lmsb a) (llsb a) (lsgn a) 0 D) as (Vd & Md & Ld & Sd).
  rewrite assign_same; [|exact Vd|exact Vv|unfold bw; rewrite Mv, Lv, Md, Ld; reflexivity]. cbn [bind]. unfold certain. do 2 f_equal.
  - unfold rewritten. rewrite Md, Ld, Sd. unfold lmsb, llsb, lsgn. rewrite <- Mv, <- Lv, <- Sv. symmetry. apply as_object. exact Vv.
  - rewrite Mv, Lv. reflexivity.
Qed.
Lemma blank_spread k : blank (spread k 0) = true.
Proof. unfold blank. induction k as [|k IH]; [reflexivity|]. cbn [spread forallb]. rewrite Z.mod_0_l, Z.div_0_l by lia. rewrite IH. reflexivity. Qed.
Lemma nothing_nonzero n : seems_nonzero (bit0 false) n = false.
Proof.
  unfold seems_nonzero. destruct (n <=? 64); [reflexivity|]. unfold widened. change (small (bit0 false)) with true. change (stored (bit0 false)) with 0. change (bsgn (bit0 false)) with false.
  unfold seems_zero, words_of. destruct (_ =? _); rewrite ?Zmod_0_l, blank_spread; reflexivity.
Qed.
Lemma seems_any x : vec x -> seems_nonzero x (bw x) = any_true x.
Proof. intros V. rewrite <- seems_own by exact V. apply any_set_any. exact V. Qed.
Lemma assign_four d a : lvec d -> lvec a -> logic_assign d a = four_assign d a.
Proof. intros Ld La. unfold logic_assign, four_assign. rewrite !assign_any by (apply lv_val || apply lv_xz; assumption). reflexivity. Qed.
Lemma stored_nil m l s : stored (bit_zero m l s) = 0.
Proof. unfold stored, bit_zero. cbn [bval]. destruct (native_num _); [reflexivity|]. apply bn_zero_num. Qed.
Lemma assign_unknown a s : lvec a -> logic_assign a (all_unknown (lw a) s) = Ok (rewritten4 a 0 (2 ^ lw a - 1)).
Proof.
  intros L. destruct (vec_facts _ (lv_val a L)) as (_ & _ & W). fold (lw a) in W. pose proof (lvec_is a L) as [(V & M & N & S1) (X & M' & N' & S')].
  unfold logic_assign, all_unknown, vec4, object4. cbn [l_val l_xz].
  rewrite assign_same; [|exact V|apply (vec_of_vec (lw a)); lia|apply (vec_of_bw (lw a)); lia]. cbn [bind].
  rewrite assign_same; [|exact X|apply (vec_of_vec (lw a)); lia|rewrite lw_xz by exact L; apply (vec_of_bw (lw a)); lia]. cbn [bind].
  unfold rewritten4, object4, rewritten. rewrite M', N', S'. do 2 f_equal.
  - replace (stored (object (lw a - 1) 0 s 0)) with 0; [reflexivity|]. rewrite <- zero_object. symmetry. apply stored_nil.
  - apply object_again. rewrite width_n by lia. reflexivity.
Qed.
Lemma one_vec : vec bit_one. Proof. exact (proj1 (bit0_lvec true true)). Qed.
Lemma step_four d op a : (forall b, lvec b -> logic_arith false op a b = four_arith false op a b) -> good op -> (let! r := op (l_val a) bit_one in bit_assign (l_val a) r) = any_step d (l_val a) -> lvec a ->
  (let! r := logic_arith false op a logic_one in logic_assign a r) = four_step d a.
Proof.
  intros O G E L. rewrite O by apply bit0_lvec. unfold four_arith, four_step. cbn zeta. destruct (vec_facts _ (lv_val a L)) as (_ & _ & W). fold (lw a) in W.
  change (lw logic_one) with 1. unfold widths_ok. change (lw logic_one) with 1. replace (lw a <? 1) with false by lia. replace (Z.max (lw a) 1) with (lw a) by lia.
  destruct ((lw a =? 1) || plain_range a); cbn [negb]; [|reflexivity].
  assert (D1 : doubt_at a (lw a) = doubtful a) by (unfold doubt_at; rewrite <- lw_xz by exact L; apply seems_any; apply L).
  assert (D2 : doubt_at logic_one (lw a) = false) by apply nothing_nonzero. rewrite D1, D2. cbn [andb]. rewrite !orb_false_r. rewrite <- E. change (l_val logic_one) with bit_one.
  pose proof (lvec_is a L) as [(V & M & N & S1) (X & M' & N' & S')].
  destruct (op (l_val a) bit_one) as [r| | | |] eqn:H; cbn [bind omap unless]; try (destruct (doubtful a); [apply assign_unknown; exact L|reflexivity]); try reflexivity.
  destruct (G _ bit_one _ V one_vec H) as (Vr & Mr & Lr & Sr). change (bw bit_one) with 1 in Mr. fold (lw a) in Mr. replace (Z.max (lw a) 1) with (lw a) in Mr by lia.
  assert (B : bw r = lw a) by (unfold bw; rewrite Mr, Lr; apply width_n; lia).
  rewrite assign_same; [|exact V|exact Vr|exact B]. cbn [omap unless]. destruct (doubtful a); cbn [bind].
  - apply assign_unknown. exact L.
  - unfold logic_assign, certain. cbn [l_val l_xz]. rewrite assign_same; [|exact V|exact Vr|exact B]. cbn [bind].
    rewrite assign_same; [|exact X|rewrite <- zero_object; rewrite Mr, Lr; apply is_zero, decl_n; exact L|].
    + cbn [bind]. unfold rewritten. cbn [bmsb blsb]. do 2 f_equal. rewrite <- zero_object, stored_nil, M', N', S'. reflexivity.
    + rewrite lw_xz by exact L. rewrite Mr, Lr. apply width_n. lia.
Qed.
Lemma inc_four a : lvec a -> logic_inc a = four_step 1 a.
Proof.
  intros L. apply (step_four 1 bit_add); [|exact good_add|apply inc_any; apply L|exact L]. intros b Lb. fold logic_add. rewrite add_four by assumption.
  symmetry. apply arith_ref; try assumption. intros. apply add_any; assumption.
Qed.
Lemma dec_four a : lvec a -> logic_dec a = four_step (-1) a.
Proof.
  intros L. apply (step_four (-1) bit_sub); [|exact good_sub|apply dec_any; apply L|exact L]. intros b Lb. fold logic_sub. rewrite sub_four by assumption.
  symmetry. apply arith_ref; try assumption. intros. apply sub_any; assumption.
Qed.

(** * single positions *)
Lemma put_four f a i c : f = (let! v := bit_set (l_val a) i (high c) in let! m := bit_set (l_xz a) i (unknown c) in Ok (mkLogic v m)) ->
  lvec a -> int_ok i -> f = four_put_at a i c.
Proof. intros -> L I0. unfold four_put_at. rewrite !set_any by (assumption || apply lv_val || apply lv_xz; assumption). reflexivity. Qed.
Lemma set_four a i x : lvec a -> int_ok i -> logic_set a i x = four_put_at a i (sym_of_bool x).
Proof. intros L I0. apply put_four; try assumption. unfold logic_set. destruct x; reflexivity. Qed.
Lemma with_cases a i x : vec a -> (any_with_position a i x = UB /\ small a = true /\ (0 <=? slot a i - Z.min (blsb a) (bmsb a)) && (slot a i - Z.min (blsb a) (bmsb a) <? 64) = false) \/
  (exists r, any_with_position a i x = Ok r /\ (small a = true -> (0 <=? slot a i - Z.min (blsb a) (bmsb a)) && (slot a i - Z.min (blsb a) (bmsb a) <? 64) = true)).
Proof.
  intros V. unfold any_with_position, with_position. cbn zeta. destruct (small a); [|right; eexists; split; [reflexivity|discriminate]].
  destruct ((0 <=? _) && _); [right; eexists; split; [reflexivity|auto]|left; auto].
Qed.
Lemma swap_put a i c : lvec a -> int_ok i -> (let! m := any_with_position (l_xz a) i (unknown c) in let! v := any_with_position (l_val a) i (high c) in Ok (mkLogic v m)) = four_put_at a i c.
Proof.
  intros L I0. unfold four_put_at. pose proof (lvec_is a L) as [(V & M & N & S1) (X & M' & N' & S')].
  assert (S2 : small (l_xz a) = small (l_val a)) by (unfold small; rewrite lw_xz by exact L; reflexivity). assert (S3 : slot (l_xz a) i = slot (l_val a) i) by (unfold slot; rewrite M, M', N, N'; reflexivity).
  destruct (with_cases (l_val a) i (high c) V) as [(-> & T1 & Q1) | (r1 & -> & Q1)], (with_cases (l_xz a) i (unknown c) X) as [(-> & T2 & Q2) | (r2 & -> & Q2)]; try reflexivity; cbn [bind].
Qed.
Lemma set_x_four a i : lvec a -> int_ok i -> logic_set_x a i = four_put_at a i SX.
Proof. intros L I0. rewrite <- swap_put by assumption. unfold logic_set_x. rewrite !set_any by (assumption || apply lv_val || apply lv_xz; assumption). reflexivity. Qed.
Lemma set_z_four a i : lvec a -> int_ok i -> logic_set_z a i = four_put_at a i SZ.
Proof. intros L I0. rewrite <- swap_put by assumption. unfold logic_set_z. rewrite !set_any by (assumption || apply lv_val || apply lv_xz; assumption). reflexivity. Qed.
Lemma set_l_four a i x : lvec a -> int_ok i -> lvec x -> lw x = 1 -> logic_set_l a i x = four_put_at a i (sym_of (negb (stored (l_val x) =? 0)) (negb (stored (l_xz x) =? 0))).
Proof.
  intros L I0 Lx W. apply put_four; try assumption. unfold logic_set_l.
  destruct (vec_cases _ (lv_val x Lx)) as [(v & E1 & N1 & _ & S1) | (v & E1 & N1 & _)]; [|unfold lw in W; lia].
  destruct (vec_cases _ (lv_xz x Lx)) as [(m & E2 & N2 & _ & S2) | (m & E2 & N2 & _)]; [|rewrite lw_xz in N2 by exact Lx; lia].
  unfold bit0_bool. rewrite E1, E2, S1, S2. destruct (v =? 0), (m =? 0); reflexivity.
Qed.
Lemma get_four a i : lvec a -> int_ok i -> logic_get a i = four_at a i.
Proof.
  intros L I0. unfold logic_get, four_at. rewrite andb_comm. destruct ((Z.min (lmsb a) (llsb a) <=? i) && (i <=? Z.max (lmsb a) (llsb a))); cbn [negb]; [|reflexivity].
  pose proof (lvec_is a L) as [(V & M & N & S1) (X & M' & N' & S')]. unfold logic_x_set, logic_z_set. rewrite !get_any by assumption. cbn zeta.
  assert (S2 : small (l_xz a) = small (l_val a)) by (unfold small; rewrite lw_xz by exact L; reflexivity). assert (S3 : slot (l_xz a) i = slot (l_val a) i) by (unfold slot; rewrite M, M', N, N'; reflexivity).
  assert (G : any_position (l_val a) i = UB /\ any_position (l_xz a) i = UB \/ (exists v m, any_position (l_val a) i = Ok v /\ any_position (l_xz a) i = Ok m)).
  { unfold any_position, position. cbn zeta. rewrite S2, S3, lw_xz by exact L. fold (lw a). destruct (small (l_val a)); [|right; do 2 eexists; split; reflexivity].
    destruct ((0 <=? _) && _); [right; do 2 eexists; split; reflexivity|left; auto]. }
  destruct G as [(-> & ->) | (v & m & -> & ->)]; [reflexivity|]. cbn [bind]. destruct m; cbn [bind andb]; [|destruct v; reflexivity].
  assert (P : forall b x, bit_set (bit0 b) i x = if (0 <=? i) && (i <? 64) then Ok (written (bit0 b) (if x then Z.setbit (b2z b) i else Z.clearbit (b2z b) i)) else UB).
  { intros b x. rewrite set_any by (exact I0 || apply is_bit0). unfold any_with_position, with_position. change (small (bit0 b)) with true. cbn zeta iota. change (slot (bit0 b) i) with i.
    change (Z.min (blsb (bit0 b)) (bmsb (bit0 b))) with 0. rewrite Z.sub_0_r. reflexivity. }
  change (logic_default 0 0 false) with (mkLogic (bit0 false) (bit0 true)).
  assert (R : (0 <=? i) && (i <? 64) = true -> Z.setbit 1 i <> 0 /\ Z.setbit 0 i <> 0 /\ Z.clearbit 0 i = 0).
  { intros Hi. split; [|split].
    - intros E. apply (f_equal (fun z => Z.testbit z i)) in E. rewrite Z.setbit_eq, Z.bits_0 in E by lia. discriminate.
    - intros E. apply (f_equal (fun z => Z.testbit z i)) in E. rewrite Z.setbit_eq, Z.bits_0 in E by lia. discriminate.
    - apply Z.bits_inj'. intros p Hp. rewrite Z.clearbit_eqb, Z.bits_0 by lia. reflexivity. }
  destruct v; cbn [negb bind]; unfold logic_set_x, logic_set_z; cbn [l_val l_xz]; rewrite !P; destruct ((0 <=? i) && (i <? 64)) eqn:Q; cbn [bind]; try reflexivity; destruct (R eq_refl) as (R1 & R2 & R3);
    unfold written, store; change (bw (bit0 _)) with 1; cbn [Z.eqb b2z]; rewrite ?R3; apply Z.eqb_neq in R1; apply Z.eqb_neq in R2; rewrite ?R1, ?R2; reflexivity.
Qed.

(** * slices, changes of width, concatenation *)
Lemma slice_four a i j : lvec a -> int_ok i -> int_ok j -> logic_slice_c a i j = four_slice a i j.
Proof.
  intros L I1 I2. unfold logic_slice_c, four_slice, both, requires. change (lsize a) with (lw a). rewrite !slice_c_any by (assumption || apply lv_val || apply lv_xz; assumption). reflexivity.
Qed.
Lemma slice_dynamic_four a m i j : lvec a -> 1 <= m -> int_ok i -> int_ok j -> logic_slice_r a m i j = four_slice_dynamic a m i j.
Proof.
  intros L Hm I1 I2. unfold logic_slice_r, four_slice_dynamic, both. rewrite !slice_r_any by (assumption || apply lv_val || apply lv_xz; assumption). reflexivity.
Qed.
Lemma widen_four a m : lvec a -> 1 <= m < 2 ^ 31 -> logic_extend a m = four_widen a m.
Proof.
  intros L Hm. unfold logic_extend, four_widen, both, requires. change (lsize a) with (lw a). rewrite !extend_any by (assumption || apply lv_val || apply lv_xz; assumption). reflexivity.
Qed.
Lemma sign_four s a : lvec a -> logic_resign s a = Ok (four_sign s a).
Proof.
  intros L. destruct (vec_facts _ (lv_val a L)) as (_ & _ & W). fold (lw a) in W. pose proof (lvec_is a L) as [(V & M & N & S1) (X & M' & N' & S')].
  unfold logic_resign, four_sign, logic_default. cbn zeta. cbn [l_val l_xz]. change (lsize a) with (lw a). rewrite resign_any, mask_object by (exact V || (apply decl_plain; lia)). rewrite zero_object.
  change (object (lw a - 1) 0 s 0) with (vec_of (lw a) s 0). change (object (lw a - 1) 0 false (2 ^ width (lw a - 1) 0 - 1)) with (vec_of (lw a) false (2 ^ width (lw a - 1) 0 - 1)). fold (lw a).
  rewrite assign_same; [|apply vec_of_vec; lia|apply vec_of_vec; lia|rewrite !vec_of_bw by lia; reflexivity]. cbn [bind].
  rewrite assign_same; [|apply vec_of_vec; lia|exact X|rewrite vec_of_bw by lia; apply lw_xz; exact L]. cbn [bind]. unfold vec4, object4. do 2 f_equal.
  apply (object_again (lw a - 1) 0 s (lw a - 1) 0). reflexivity.
Qed.
Lemma joined_cases a b v : vec a -> vec b -> joined a b = Ok v -> vec v /\ bw v = bw a + bw b /\ bw a + bw b < 64.
Proof.
  intros Va Vb H. rewrite <- concat_any in H by assumption. destruct (concat_vec _ _ _ Va Vb H) as (V & M & N & S1). pose proof (bw_pos a). pose proof (bw_pos b).
  split; [exact V|]. split; [unfold bw at 1; rewrite M, N; apply width_n; lia|]. rewrite concat_any in H by assumption. unfold joined in H. cbn zeta in H. destruct (Z.leb_spec 64 (bw a + bw b)); [discriminate|lia].
Qed.
Lemma join_four a b : lvec a -> lvec b -> logic_concat a b = four_join a b.
Proof.
  intros La Lb. destruct (vec_facts _ (lv_val a La)) as (_ & _ & Wa). destruct (vec_facts _ (lv_val b Lb)) as (_ & _ & Wb). fold (lw a) in Wa. fold (lw b) in Wb. pose proof (lw_xz a La) as Xa. pose proof (lw_xz b Lb) as Xb.
  unfold logic_concat, four_join. cbn zeta. change (lsize a) with (lw a). change (lsize b) with (lw b). rewrite !concat_any by (apply lv_val || apply lv_xz; assumption).
  destruct (joined (l_val a) (l_val b)) as [v| | | |] eqn:H1; cbn [bind]; try reflexivity. destruct (joined (l_xz a) (l_xz b)) as [m| | | |] eqn:H2; cbn [bind]; try reflexivity.
  destruct (joined_cases _ _ _ (lv_val a La) (lv_val b Lb) H1) as (Vv & Bv & Lt). destruct (joined_cases _ _ _ (lv_xz a La) (lv_xz b Lb) H2) as (Vm & Bm & _). fold (lw a) (lw b) in Bv, Lt. rewrite Xa, Xb in Bm.
  rewrite default_unknown by lia. unfold all_unknown, vec4, object4. cbn [l_val l_xz].
  rewrite assign_same; [|apply (vec_of_vec (lw a + lw b)); lia|exact Vv|rewrite Bv; symmetry; apply (vec_of_bw (lw a + lw b)); lia]. cbn [bind].
  rewrite assign_same; [|apply (vec_of_vec (lw a + lw b)); lia|exact Vm|rewrite Bm; symmetry; apply (vec_of_bw (lw a + lw b)); lia]. reflexivity.
Qed.
Lemma join_bit_four a b : lvec a -> vec b -> logic_concat_bit a b = four_join_bit a b.
Proof.
  intros La Vb. destruct (vec_facts _ (lv_val a La)) as (_ & _ & Wa). destruct (vec_facts _ Vb) as (_ & _ & Wb). fold (lw a) in Wa. pose proof (lw_xz a La) as Xa.
  unfold logic_concat_bit, four_join_bit. cbn zeta. change (lsize a) with (lw a). change (bsize b) with (bw b). rewrite concat_any by (exact Vb || apply lv_val; assumption).
  destruct (joined (l_val a) b) as [v| | | |] eqn:H1; cbn [bind]; try reflexivity.
  destruct (joined_cases _ _ _ (lv_val a La) Vb H1) as (Vv & Bv & Lt). fold (lw a) in Bv, Lt.
  rewrite extend_any by ((apply lv_xz; exact La) || lia). unfold any_resize, small, resized. rewrite Xa. replace (lw a <=? 64) with true by lia. replace (lw a + bw b <=? 64) with true by lia. replace (lw a <? lw a + bw b) with true by lia. cbn [andb bind].
  rewrite default_unknown by lia. unfold all_unknown, vec4, object4. cbn [l_val l_xz].
  assert (SX : bsgn (l_xz a) = false) by apply La.
  rewrite assign_same; [|apply (vec_of_vec (lw a + bw b)); lia|exact Vv|rewrite Bv; symmetry; apply (vec_of_bw (lw a + bw b)); lia]. cbn [bind]. rewrite <- vec_of_small, SX by lia.
  rewrite assign_same; [|apply (vec_of_vec (lw a + bw b)); lia|apply vec_of_vec; lia|rewrite vec_of_bw by lia; symmetry; apply (vec_of_bw (lw a + bw b)); lia]. cbn [bind]. do 2 f_equal.
  apply (object_again (lw a + bw b - 1) 0 false (lw a + bw b - 1) 0). reflexivity.
Qed.

(** * compound assignment, conversion *)
Lemma compound_four op r a b : op a b = r -> (forall x, r = Ok x -> lvec x) -> lvec a -> logic_compound op a b = four_assigned a b r.
Proof.
  intros <- G L. unfold logic_compound, four_assigned, requires. change (lsgn b) with (bsgn (l_val b)). rewrite updatable_ok. unfold updatable, plain_range. change (bsgn (l_val a)) with (lsgn a).
  unfold llsb, lmsb. destruct ((blsb (l_val a) =? 0) && (0 <=? bmsb (l_val a)) && _); [|reflexivity]. cbn [negb].
  destruct (op a b) as [x| | | |] eqn:H; try reflexivity. cbn [bind]. apply assign_four; auto.
Qed.
Lemma to_uint64_four a : lvec a -> logic_to_uint64 a = four_to_uint64 a.
Proof. intros L. unfold logic_to_uint64, four_to_uint64. rewrite doubt_any, to_uint64_any by (exact L || apply L). reflexivity. Qed.

(** * reductions *)
Lemma r_and_scan l : lvec l -> forall k i, logic_r_and_scan l (zrange i (i + Z.of_nat k)) = omap single (search l S0 k i).
Proof.
  intros L. induction k as [|k IH]; intros i.
  - rewrite zrange_empty by lia. reflexivity.
  - rewrite zrange_cons by lia. cbn [logic_r_and_scan search]. rewrite !get_any by (apply lv_val || apply lv_xz; exact L). replace (i + Z.of_nat (S k)) with (i + 1 + Z.of_nat k) by lia.
    destruct (any_position (l_val l) i) as [v| | | |]; cbn [bind omap]; try reflexivity. destruct (any_position (l_xz l) i) as [m| | | |]; cbn [bind omap]; try reflexivity.
    destruct v, m; cbn [negb andb]; try reflexivity. apply IH.
Qed.
Lemma r_or_scan l : lvec l -> forall k i, logic_r_or_scan l (zrange i (i + Z.of_nat k)) = omap single (search l S1 k i).
Proof.
  intros L. induction k as [|k IH]; intros i.
  - rewrite zrange_empty by lia. reflexivity.
  - rewrite zrange_cons by lia. cbn [logic_r_or_scan search]. rewrite !get_any by (apply lv_val || apply lv_xz; exact L). replace (i + Z.of_nat (S k)) with (i + 1 + Z.of_nat k) by lia.
    destruct (any_position (l_val l) i) as [v| | | |]; cbn [bind omap]; try reflexivity. destruct (any_position (l_xz l) i) as [m| | | |]; cbn [bind omap]; try reflexivity.
    destruct v, m; cbn [negb andb]; try reflexivity. apply IH.
Qed.
Lemma r_and_four l : lvec l -> logic_r_and l = four_all l.
Proof.
  intros L. pose proof (bw_pos (l_val l)) as P. unfold logic_r_and, four_all. change (lsize l) with (lw l). rewrite <- r_and_scan by exact L. do 2 f_equal. unfold lw in *. lia.
Qed.
Lemma r_or_four l : lvec l -> logic_r_or l = four_some l.
Proof.
  intros L. pose proof (bw_pos (l_val l)) as P. unfold logic_r_or, four_some. change (lsize l) with (lw l). rewrite <- r_or_scan by exact L. do 2 f_equal. unfold lw in *. lia.
Qed.
Lemma single_lvec c : lvec (single c). Proof. destruct c; [exact (bit0_lvec false false)|exact (bit0_lvec true false)|exact (bit0_lvec false true)|exact (bit0_lvec true true)]. Qed.
Lemma inverted_four r : (forall x, r = Ok x -> lvec x) -> omap logic_lnot r = inverted r.
Proof. intros H. unfold inverted. destruct r as [x| | | |]; try reflexivity. unfold omap; cbn [bind]. rewrite lnot_four by (apply H; reflexivity). reflexivity. Qed.
Lemma omap_single r x : omap single r = Ok x -> lvec x.
Proof. destruct r; try discriminate. intros E. injection E as <-. apply single_lvec. Qed.
Lemma r_nand_four l : lvec l -> logic_r_nand l = inverted (four_all l).
Proof. intros L. unfold logic_r_nand. rewrite r_and_four by exact L. apply inverted_four. intros x. apply omap_single. Qed.
Lemma r_nor_four l : lvec l -> logic_r_nor l = inverted (four_some l).
Proof. intros L. unfold logic_r_nor. rewrite r_or_four by exact L. apply inverted_four. intros x. apply omap_single. Qed.
Lemma r_xor_four l : lvec l -> logic_r_xor l = four_parity l.
Proof.
  intros L. unfold logic_r_xor, four_parity, bit_popcount. change (lsize l) with (lw l). change (bsize (l_val l)) with (lw l). rewrite doubt_any by exact L. change (bsgn (l_val l)) with (lsgn l).
  pose proof (bw_pos (l_val l)) as P. fold (lw l) in P.
  destruct (vec_cases _ (lv_val l L)) as [(v & E & N & I0 & S1) | (v & E & N & I0 & S1)]; rewrite E; fold (lw l) in N, I0.
  - replace (64 <? lw l) with false by lia. rewrite orb_false_r. destruct (lsgn l) eqn:Q; cbn [negb andb orb requires]; [reflexivity|]. replace (1 <? lw l) with (negb (lw l =? 1)) by lia.
    destruct (lw l =? 1) eqn:Q1; cbn [negb requires]; [reflexivity|]. cbn [bind]. rewrite S1. destruct (doubtful l); [reflexivity|]. rewrite <- bool_single.
    assert (R : 0 <= v < 2 ^ Z.of_nat 64).
    { change (bsgn (l_val l)) with (lsgn l) in I0. rewrite Q in I0. change (2 ^ Z.of_nat 64) with (2 ^ 64). clear - I0 N P. revert I0. hty_cases (lw l); unfold in_ity; cbn; lia. }
    rewrite <- (popcount_ones 64) by exact R. cbn zeta. unfold logic_of_bool. f_equal. replace (Z.odd (lw l - z_popcount v)) with (negb (u64 (lw l - z_popcount v) mod 2 =? 0)); [reflexivity|].
    rewrite Zmod_odd. unfold u64. replace (Z.odd ((lw l - z_popcount v) mod 2 ^ 64)) with (Z.odd (lw l - z_popcount v)); [destruct (Z.odd _); reflexivity|].
    rewrite <- !Z.bit0_odd. rewrite Z.mod_pow2_bits_low by lia. reflexivity.
  - replace (64 <? lw l) with true by lia. rewrite orb_true_r. reflexivity.
Qed.
Lemma r_xnor_four l : lvec l -> logic_r_xnor l = inverted (four_parity l).
Proof.
  intros L. unfold logic_r_xnor. rewrite r_xor_four by exact L. apply inverted_four. intros x. unfold four_parity. destruct (_ || _); [discriminate|]. intros H. injection H as <-. apply single_lvec.
Qed.
