(** Shift registers. *)
From Coq Require Import ZArith List Bool Lia.
From Verif Require Import Cpp ZBits BigNum Bit Logic Spec SpecMachine SpecWide SpecProg SpecSerial Serial BitProofs BitExt BitMain LogicMain LogicConv2 Iff3 Iff21 Iff25 ProgExact SaturateProofs.
From Verif Require Program4Proofs.
Import ListNotations.
Open Scope Z_scope.
Local Ltac Zify.zify_post_hook ::= idtac.

Lemma held_snoc {A} (old : Z -> A) xs x p : 0 <= p -> held old (xs ++ [x]) p = if p <? 1 then x else held old xs (p - 1).
Proof.
  intros P. unfold held. rewrite app_length, rev_app_distr. cbn [length rev app]. rewrite Nat2Z.inj_add. change (Z.of_nat 1) with 1. destruct (Z.ltb_spec p 1) as [L|L].
  - replace (p <? Z.of_nat (length xs) + 1) with true by lia. assert (p = 0) by lia. subst p. reflexivity.
  - destruct (Z.ltb_spec (p - 1) (Z.of_nat (length xs))) as [L2|L2].
    + replace (p <? Z.of_nat (length xs) + 1) with true by lia. replace (Z.to_nat p) with (S (Z.to_nat (p - 1))) by lia. cbn [nth]. apply nth_indep. rewrite rev_length. lia.
    + replace (p <? Z.of_nat (length xs) + 1) with false by lia. f_equal. lia.
Qed.
Lemma held_nil {A} (old : Z -> A) p : 0 <= p -> held old [] p = old p.
Proof. intros P. unfold held. cbn [length]. replace (p <? Z.of_nat 0) with false by lia. f_equal. lia. Qed.
Lemma ofold_snoc {A B} (f : B -> A -> outcome B) l a b : ofold f (l ++ [a]) b = let! r := ofold f l b in f r a.
Proof. revert b. induction l as [|x l IH]; intros b; cbn [app ofold bind]; [destruct (f b a); reflexivity|]. destruct (f b x); cbn [bind]; [apply IH|reflexivity..]. Qed.

Lemma shift_all_fits n r xs : 2 <= n < 64 -> n <> 33 -> typed r n false -> tidy r -> (forall x, In x xs -> typed x 1 false) ->
  exists r', shift_all n r xs = Ok r' /\ typed r' n false /\ tidy r' /\ forall p, 0 <= p < n -> bit_at r' p = held (bit_at r) (map (fun x => bit_at x 0) xs) p.
Proof.
  intros N N33 R D. induction xs as [|x xs IH] using rev_ind; intros X.
  - exists r. split; [reflexivity|]. split; [exact R|]. split; [exact D|]. intros p Hp. symmetry. apply held_nil. lia.
  - destruct IH as (q & Eq & Tq & Dq & Bq). { intros y Hy. apply X. apply in_or_app. left. exact Hy. }
    assert (Tx : typed x 1 false) by (apply X; apply in_or_app; right; left; reflexivity). unfold shift_all in *. rewrite ofold_snoc, Eq. cbn [bind]. unfold shift_in.
    destruct (slice_const_unsigned q n (n - 2) 0 ltac:(lia) Tq ltac:(lia) ltac:(lia) ltac:(lia)) as (s & -> & Ts & Ds & Bs). cbn [bind]. replace (Z.abs (n - 2 - 0) + 1) with (n - 1) in * by lia.
    destruct (concat_bits s x (n - 1) 1 ltac:(lia) ltac:(lia) ltac:(lia) ltac:(lia) Ts Tx Ds (Program4Proofs.one_tidy _ _ Tx)) as (r' & Er & Tr & Dr & Br). replace (n - 1 + 1) with n in * by lia.
    exists r'. split; [exact Er|]. split; [exact Tr|]. split; [exact Dr|]. intros p Hp. rewrite Br, map_app by lia. cbn [map]. rewrite held_snoc by lia. destruct (Z.ltb_spec p 1) as [L|L]; [f_equal; lia|]. rewrite Bs, Bq by lia. f_equal. lia.
Qed.
Lemma shift_all4_fits n r xs : 2 <= n < 64 -> n <> 33 -> ltyped r n false -> ltidy r -> (forall x, In x xs -> ltyped x 1 false) ->
  exists r', shift_all4 n r xs = Ok r' /\ ltyped r' n false /\ ltidy r' /\ forall p, 0 <= p < n -> sym_at r' p = held (sym_at r) (map (fun x => sym_at x 0) xs) p.
Proof.
  intros N N33 R D. induction xs as [|x xs IH] using rev_ind; intros X.
  - exists r. split; [reflexivity|]. split; [exact R|]. split; [exact D|]. intros p Hp. symmetry. apply held_nil. lia.
  - destruct IH as (q & Eq & Tq & Dq & Bq). { intros y Hy. apply X. apply in_or_app. left. exact Hy. }
    assert (Tx : ltyped x 1 false) by (apply X; apply in_or_app; right; left; reflexivity). assert (Dx : ltidy x) by (split; [apply (Program4Proofs.one_tidy _ _ (proj1 Tx))|apply (Program4Proofs.one_tidy _ _ (proj2 Tx))]).
    unfold shift_all4 in *. rewrite ofold_snoc, Eq. cbn [bind]. unfold shift_in4.
    destruct (lslice_c q n (n - 2) 0 ltac:(lia) Tq ltac:(lia) ltac:(lia) ltac:(lia)) as (s & -> & Ts & Ds & Bs). cbn [bind]. replace (Z.abs (n - 2 - 0) + 1) with (n - 1) in * by lia.
    destruct (lconcat s x (n - 1) 1 ltac:(lia) ltac:(lia) ltac:(lia) ltac:(lia) Ts Tx Ds Dx) as (r' & Er & Tr & Dr & Br). replace (n - 1 + 1) with n in * by lia.
    exists r'. split; [exact Er|]. split; [exact Tr|]. split; [exact Dr|]. intros p Hp. rewrite Br, map_app by lia. cbn [map]. rewrite held_snoc by lia. destruct (Z.ltb_spec p 1) as [L|L]; [f_equal; lia|]. rewrite Bs, Bq by lia. f_equal. lia.
Qed.
Lemma slice_width x a b v : bit_slice_c x a b = Ok v -> bw v = Z.abs (a - b) + 1.
Proof.
  unfold bit_slice_c, requires. intros E. destruct (_ && _); [|discriminate]. cbv zeta in E. destruct (bval x) as [w|ws].
  - destruct (native_slice_c _ _ _ _ _ _); try discriminate. cbn [bind] in E. injection E as <-. unfold bw, width. cbn [bmsb blsb]. lia.
  - destruct (0 <=? Z.min a b); [|discriminate]. destruct (bn_slice_c _ _ _ _); try discriminate. cbn [bind] in E. destruct (native_num _).
    + destruct (_ <=? 64); [|discriminate]. injection E as <-. unfold bw, width. cbn [bmsb blsb]. lia.
    + injection E as <-. unfold bw, width. cbn [bmsb blsb]. lia.
Qed.
Definition ones33 : logic := mkLogic (mkBit 32 0 false (HN (2 ^ 33 - 1))) (mkBit 32 0 false (HN 0)).
Theorem shift_all4_exact n : 2 <= n < 2 ^ 31 ->
  (forall r xs, ltyped r n false -> ltidy r -> (forall x, In x xs -> ltyped x 1 false) ->
     exists r', shift_all4 n r xs = Ok r' /\ ltyped r' n false /\ forall p, 0 <= p < n -> sym_at r' p = held (sym_at r) (map (fun x => sym_at x 0) xs) p) <-> n < 64 /\ n <> 33.
Proof.
  intros Hn. split.
  - intros H. assert (T1 : ltyped (logic_of_arith 0 0 false 0) 1 false) by (repeat split; vm_compute; congruence). assert (I1 : forall x, In x [logic_of_arith 0 0 false 0] -> ltyped x 1 false) by (intros x [<-|[]]; exact T1). split.
    + destruct (Z.lt_ge_cases n 64) as [L|L]; [exact L|]. exfalso. set (l := mkLogic (vec_of n false 0) (vec_of n false 0)). assert (T0 : typed (vec_of n false 0) n false) by (apply vec_of_typed; lia).
      assert (D0 : tidy (vec_of n false 0)). { apply (tidy_u_iff _ n ltac:(lia) T0). pose proof (room_pos n ltac:(lia)). pose proof (pow2_pos n ltac:(lia)). rewrite kept_stored, Z.mod_0_l by lia. lia. }
      destruct (H l _ (conj T0 T0) (conj D0 D0) I1) as (r' & E & _). unfold shift_all4 in E. cbn [ofold] in E. unfold shift_in4 in E.
      destruct (logic_slice_c l (n - 2) 0) as [s| | | |] eqn:Es; try discriminate. cbn [bind] in E.
      unfold logic_slice_c in Es. destruct (_ <? _); [|discriminate]. cbn [requires] in Es. destruct (bit_slice_c (l_val l) (n - 2) 0) as [v| | | |] eqn:Ev; try discriminate. cbn [bind] in Es. destruct (bit_slice_c (l_xz l) (n - 2) 0) as [m| | | |] eqn:Em; try discriminate. cbn [bind] in Es. injection Es as <-.
      assert (Wv : bw v = n - 1). { rewrite (slice_width _ _ _ _ Ev). lia. }
      unfold logic_concat in E. cbn [l_val] in E. rewrite concat_rejected in E; [discriminate|]. rewrite Wv. change (bw (l_val (logic_of_arith 0 0 false 0))) with 1. lia.
    + intros ->. destruct (H ones33 [logic_of_arith 0 0 false 0]) as (r' & E & _ & Q); [conc|conc|exact I1|].
      specialize (Q 32 ltac:(lia)). vm_compute in E. injection E as <-. vm_compute in Q. discriminate.
  - intros [L N33] r xs R D X. destruct (shift_all4_fits n r xs ltac:(lia) N33 R D X) as (r' & E & T & _ & Q). exists r'. split; [exact E|]. split; assumption.
Qed.
