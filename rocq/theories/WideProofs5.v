(** Programs on vectors of any widths run with the library as with the reference machine of SpecWide.v. *)
From Coq Require Import ZArith List Bool Lia Zify ZifyBool.
From Verif Require Import Cpp BigNum Bit Logic Spec SpecExact SpecMachine SpecWide MachineProg WideProg ZBits Words BigNumProofs BigArith BitProofs BitSlice BitExt BitOps BitShift BitArith BitCmp MachineProofs MachineProofs2 MachineProofs3 MachineProofs4 MachineProofs5 WideProofs WideProofs2 WideProofs3 WideProofs4.
Import ListNotations.
Open Scope Z_scope.
Local Ltac Zify.zify_post_hook ::= idtac.

Lemma new_any msb lsb s z : int_ok msb -> int_ok lsb -> width msb lsb < 2 ^ 31 -> - 2 ^ 63 <= z < 2 ^ 64 -> bit_of_arith msb lsb s z = any_new msb lsb s z.
Proof.
  intros M L W R. assert (P : 1 <= width msb lsb) by (unfold width; lia). unfold any_new. cbn zeta. destruct (Z.leb_spec (width msb lsb) 64) as [C | C].
  - rewrite object_small by exact C. apply new_same; assumption.
  - rewrite object_wide by lia. unfold bit_of_arith, native_num. change (vsize msb lsb) with (width msb lsb). replace (width msb lsb <=? 64) with false by lia.
    unfold bit_of_arith_big. cbn zeta. change (vsize msb lsb) with (width msb lsb). set (n := width msb lsb) in *. do 2 apply f_equal.
    pose proof (nwords_bounds n ltac:(lia)) as NB. pose proof (capacity_ge n ltac:(lia)) as CG.
    destruct (s && (z <? 0)) eqn:Q.
    + apply andb_true_iff in Q. destruct Q as [-> Q]. set (a := mkBit 63 0 true (HN z)).
      assert (Va : vec a).
      { split; [|split; [unfold int_ok; cbn; lia|split; [unfold int_ok; cbn; lia|reflexivity]]]. unfold bit_ok. cbn [a bval bsize bmsb blsb bsgn].
        change (bsize a) with 64. change (hty 64 true) with TI64. cbn. apply Z.ltb_lt in Q. clear - Q R. change (2 ^ 63) with 9223372036854775808 in R. apply andb_true_intro. split; [apply Z.leb_le|apply Z.ltb_lt]; lia. }
      assert (Wa : bw a = 64) by reflexivity. pose proof (bit_extend_small_wide a n Va ltac:(lia) ltac:(lia)) as X. unfold bit_extend in X. cbn zeta in X.
      rewrite (bsize_bw a _ eq_refl), Wa in X. replace (64 <? n) with true in X by lia. cbn [a bval bsgn stored] in X. unfold native_num in X.
      replace (n <=? 64) with false in X by lia. rewrite vec_of_wide in X by lia. rewrite Q in X. cbn [andb] in X. injection X as X. exact X.
    + destruct (bn_of_native_spec n z ltac:(lia)) as [W0 N0]. apply big_eq; [lia|exact W0|]. rewrite N0. change (u64 z) with (z mod 2 ^ 64). symmetry. apply Z.mod_small.
      pose proof (Z.mod_pos_bound z (2 ^ 64) ltac:(lia)). pose proof (pow_mono2 64 (capacity n) ltac:(lia)). lia.
Qed.
Lemma any_new_vec msb lsb s z : int_ok msb -> int_ok lsb -> width msb lsb < 2 ^ 31 -> vec (any_new msb lsb s z).
Proof. intros. apply object_vec; assumption. Qed.
Lemma combined_vec f a b r : vec a -> vec b -> combined f a b = Ok r -> vec r.
Proof.
  intros Va Vb E. unfold combined in E. cbn zeta in E. pose proof (wide_bound a b Va Vb) as B. destruct (negb _); [discriminate|]. destruct (f _ _); try discriminate.
  injection E as <-. apply vec_of_vec. exact B.
Qed.
Lemma slice_vec a i j r : vec a -> any_slice a i j = Ok r -> vec r.
Proof.
  intros V E. unfold any_slice in E. destruct (small_dec a V) as [[F H] | [F H]]; rewrite F in E.
  - apply (slice_fixed_native a i j); [split; assumption|exact E].
  - cbn zeta in E. destruct (_ || _) eqn:Q; [discriminate|]. injection E as <-. apply vec_of_vec. assert (bw a < 2 ^ 31) by apply V.
    apply orb_false_iff in Q. destruct Q as [Q _]. apply negb_false_iff in Q. lia.
Qed.
Lemma any_un_vec o a r : wide_un_ok o -> vec a -> any_un o a = Ok r -> vec r.
Proof.
  intros O V E. assert (NB : 1 <= bw a < 2 ^ 31) by (pose proof (bw_pos a); destruct V as (_ & _ & _ & ?); lia).
  assert (N : small a = true -> MachineProg.native a) by (unfold small; intros; split; [exact V|lia]).
  destruct o; cbn [any_un wide_un_ok] in *.
  - unfold any_minus in E. destruct (small a); [|discriminate]. apply (ref_un_native Minus a); auto.
  - injection E as <-. unfold any_inverse. destruct (small a); [|apply vec_of_vec; exact NB]. apply (ref_un_native Inv a (inverse a)); auto.
  - unfold any_two_complement in E. destruct (small a); [apply (ref_un_native TwoC a); auto|]. injection E as <-. apply vec_of_vec. exact NB.
  - injection E as <-. apply rewritten_vec. exact V.
  - injection E as <-. apply vec_of_vec. exact NB.
  - injection E as <-. apply vec_of_vec. exact NB.
  - unfold any_resize in E. destruct (small a && (m <=? 64)) eqn:Q.
    + apply andb_true_iff in Q. destruct Q as [Q1 Q2]. apply (ref_un_native (Resize m) a r); auto. cbn. lia.
    + destruct (bw a <? m); [injection E as <-; apply vec_of_vec; exact O|]. destruct (m =? bw a).
      * destruct (_ || _); [|discriminate]. injection E as <-. apply vec_of_vec. exact O.
      * destruct (any_slice a (m - 1) 0) eqn:S0; try discriminate. destruct (bsgn a); [discriminate|]. injection E as <-. apply (slice_vec a (m - 1) 0); assumption.
  - apply (slice_vec a i j); assumption.
  - destruct O as (Om & Oi & Oj). unfold any_slice_dynamic in E. destruct (small a) eqn:Sm.
    + apply (ref_un_native (SliceN m i j) a r); auto. cbn. split; [lia|tauto].
    + cbn zeta in E. destruct (_ =? _); [discriminate|]. injection E as <-. apply vec_of_vec. exact Om.
Qed.
Lemma any_bin_vec o a b r : vec a -> vec b -> any_bin o a b = Ok r -> vec r.
Proof.
  intros Va Vb E. assert (NB : 1 <= bw a < 2 ^ 31) by (pose proof (bw_pos a); destruct Va as (_ & _ & _ & ?); lia).
  assert (K : forall o, small a && small b = true -> ref_bin o a b = Ok r -> vec r).
  { intros o' Q E'. apply small_true in Q. apply (ref_bin_native o' a b r); [split; tauto|split; tauto|exact E']. }
  assert (T : forall nar o f, nar = ref_bin o -> any_shift nar f a b = Ok r -> vec r).
  { intros nar o' f -> F. unfold any_shift in F. destruct (small a) eqn:Q1; [destruct (small b) eqn:Q2; [|discriminate]; apply (K o'); [reflexivity|exact F]|].
    injection F as <-. apply vec_of_vec. exact NB. }
  destruct o; cbn [any_bin] in E.
  - unfold any_sum in E. destruct (small a && small b) eqn:Q; [apply (K Plus); auto|eapply combined_vec; [exact Va|exact Vb|exact E]].
  - unfold any_difference in E. destruct (small a && small b) eqn:Q; [apply (K Less); auto|eapply combined_vec; [exact Va|exact Vb|exact E]].
  - unfold any_product in E. cbn zeta in E. destruct (small a && small b) eqn:Q; [apply (K Times); auto|eapply combined_vec; [exact Va|exact Vb|exact E]].
  - unfold any_quotient in E. destruct (small a && small b) eqn:Q; [apply (K Quot); auto|eapply combined_vec; [exact Va|exact Vb|exact E]].
  - unfold any_remainder in E. destruct (small a && small b) eqn:Q; [apply (K Rem); auto|eapply combined_vec; [exact Va|exact Vb|exact E]].
  - unfold any_bitwise in E. destruct (small a && small b) eqn:Q; [apply (K And); auto|eapply combined_vec; [exact Va|exact Vb|exact E]].
  - unfold any_bitwise in E. destruct (small a && small b) eqn:Q; [apply (K Or); auto|eapply combined_vec; [exact Va|exact Vb|exact E]].
  - unfold any_bitwise in E. destruct (small a && small b) eqn:Q; [apply (K Xor); auto|eapply combined_vec; [exact Va|exact Vb|exact E]].
  - eapply (T shifted_left Shl); [reflexivity|exact E].
  - eapply (T shifted_right Shr); [reflexivity|exact E].
  - eapply (T shifted_arith Ashr); [reflexivity|exact E].
  - destruct (small a && small b) eqn:Q; [apply (K Join); auto|]. apply small_cases in Q. unfold joined in E. cbn zeta in E.
    pose proof (bw_pos b). replace (64 <=? bw a + bw b) with true in E by (unfold wider in Q; lia). discriminate.
Qed.
Lemma un_any o a : wide_un_ok o -> vec a -> lib_un o a = any_un o a.
Proof.
  intros O V. destruct o; cbn [lib_un any_un wide_un_ok] in *.
  - apply neg_any; assumption.
  - rewrite not_any by assumption. reflexivity.
  - apply negate_any; assumption.
  - rewrite mask_off_every by assumption. reflexivity.
  - unfold bit_to_signed. rewrite resign_any by assumption. reflexivity.
  - unfold bit_to_unsigned. rewrite resign_any by assumption. reflexivity.
  - apply extend_any; assumption.
  - apply slice_c_any; tauto.
  - apply slice_r_any; try tauto. 
Qed.
Lemma bin_any_ref o a b : vec a -> vec b -> lib_bin o a b = any_bin o a b.
Proof.
  intros Va Vb. destruct o; cbn [lib_bin any_bin].
  - apply add_any; assumption.
  - apply sub_any; assumption.
  - apply mul_any; assumption.
  - apply div_any; assumption.
  - apply rem_any; assumption.
  - apply and_any; assumption.
  - apply or_any; assumption.
  - apply xor_any; assumption.
  - apply shl_any; assumption.
  - apply shr_any; assumption.
  - apply ashr_any; assumption.
  - apply concat_any; assumption.
Qed.
Lemma put_any o a b : vec a -> vec b -> lib_put o a b = any_put o a b.
Proof.
  intros Va Vb. assert (K : forall op, lib_bin op a b = any_bin op a b) by (intros op; apply bin_any_ref; assumption).
  assert (R : forall op x, any_bin op a b = Ok x -> vec x) by (intros op x; apply any_bin_vec; assumption).
  destruct o; try reflexivity; cbn [lib_put any_put]; unfold bit_and_assign, bit_or_assign, bit_xor_assign.
  - apply compound_any; auto. apply (K And). apply (R And).
  - apply compound_any; auto. apply (K Or). apply (R Or).
  - apply compound_any; auto. apply (K Xor). apply (R Xor).
  - apply shift_assign_any; auto. apply (K Shl). apply (R Shl).
  - apply shift_assign_any; auto. apply (K Shr). apply (R Shr).
Qed.
Lemma any_assign_vec a x r : vec a -> any_assign a x = Ok r -> vec r.
Proof. intros V E. unfold any_assign in E. destruct (_ || _); [|discriminate]. injection E as <-. apply rewritten_vec. exact V. Qed.
Lemma any_put_vec o a b r : vec a -> any_put o a b = Ok r -> vec r.
Proof.
  intros V E. assert (K : forall c x, any_assigned c a b x = Ok r -> vec r).
  { intros c x F. unfold any_assigned in F. destruct (negb _); [discriminate|]. destruct x; try discriminate.
    destruct (any_assign a a0) eqn:G; try discriminate. injection F as <-. destruct c; [apply rewritten_vec; exact V|]. apply (any_assign_vec a a0); assumption. }
  destruct o; try discriminate; cbn [any_put] in E; eapply K; eassumption.
Qed.
Lemma rel_any r a b : vec a -> vec b -> lib_rel r a b = any_rel r a b.
Proof.
  intros Va Vb. destruct r; cbn [lib_rel any_rel].
  - apply eq_any; assumption.
  - apply ne_any; assumption.
  - apply lt_any; assumption.
  - apply le_any; assumption.
  - apply gt_any; assumption.
  - apply ge_any; assumption.
Qed.
Lemma ex_any st e : (forall k, vec (st k)) -> wide_ex_ok e -> lib_ex st e = any_ex st e /\ forall r, any_ex st e = Ok r -> vec r.
Proof.
  intros St. induction e as [k|msb lsb s z|o e IH|o e IHe f IHf]; cbn [lib_ex any_ex wide_ex_ok]; intros O.
  - split; [reflexivity|]. intros r E. injection E as <-. apply St.
  - destruct O as (M & L & W & R). split; [rewrite new_any by assumption; reflexivity|]. intros r F. injection F as <-. apply any_new_vec; assumption.
  - destruct O as [O1 O2]. destruct (IH O2) as [E N]. rewrite E. destruct (any_ex st e) as [a| | | |]; cbn [bind]; try (split; [reflexivity|discriminate]).
    specialize (N a eq_refl). split; [apply un_any; assumption|]. intros r. apply any_un_vec; assumption.
  - destruct O as [O1 O2]. destruct (IHe O1) as [E N]. destruct (IHf O2) as [F M]. rewrite E, F.
    destruct (any_ex st e) as [a| | | |]; cbn [bind]; try (split; [reflexivity|discriminate]).
    destruct (any_ex st f) as [b| | | |]; cbn [bind]; try (split; [reflexivity|discriminate]).
    specialize (N a eq_refl). specialize (M b eq_refl). split; [apply bin_any_ref; assumption|]. intros r. apply any_bin_vec; assumption.
Qed.
Lemma test_any st t : (forall k, vec (st k)) -> wide_test_ok t -> lib_test st t = any_test st t.
Proof.
  intros St. destruct t as [r e f|e|e i|e]; cbn [lib_test any_test wide_test_ok]; intros O.
  - destruct O as [O1 O2]. destruct (ex_any st e St O1) as [E N]. destruct (ex_any st f St O2) as [F M]. rewrite E, F.
    destruct (any_ex st e) as [a| | | |]; cbn [bind]; try reflexivity. destruct (any_ex st f) as [b| | | |]; cbn [bind]; try reflexivity.
    apply rel_any; [apply N|apply M]; reflexivity.
  - destruct (ex_any st e St O) as [E N]. rewrite E. destruct (any_ex st e) as [a| | | |]; cbn [bind]; try reflexivity.
    rewrite any_set_any by (apply N; reflexivity). reflexivity.
  - destruct (ex_any st e St O) as [E N]. rewrite E. destruct (any_ex st e) as [a| | | |]; cbn [bind]; try reflexivity.
    apply get_any. apply N. reflexivity.
  - destruct (ex_any st e St O) as [E N]. rewrite E. destruct (any_ex st e) as [a| | | |]; cbn [bind]; try reflexivity.
    rewrite r_and_any by (apply N; reflexivity). reflexivity.
Qed.
Lemma upd_vec st k x : (forall j, vec (st j)) -> vec x -> forall j, vec (upd st k x j).
Proof. intros St N j. unfold upd. destruct (Nat.eqb j k); [exact N|apply St]. Qed.
Lemma any_step_vec d a r : vec a -> any_step d a = Ok r -> vec r.
Proof.
  intros V E. unfold any_step in E. destruct (small_dec a V) as [[F H] | [F H]]; rewrite F in E.
  - apply (stepped_native d a r); [split; assumption|exact E].
  - destruct (_ || _); [|discriminate]. injection E as <-. apply rewritten_vec. exact V.
Qed.
Lemma any_with_position_vec a i b r : vec a -> any_with_position a i b = Ok r -> vec r.
Proof.
  intros V E. unfold any_with_position in E. destruct (small_dec a V) as [[F H] | [F H]]; rewrite F in E.
  - apply (position_native a i b r); [split; assumption|exact E].
  - injection E as <-. apply rewritten_vec. exact V.
Qed.
Lemma run_any fuel : forall st c, (forall k, vec (st k)) -> wide_stmt_ok c ->
  lib_run fuel st c = any_run fuel st c /\ forall st', any_run fuel st c = Ok st' -> forall k, vec (st' k).
Proof.
  induction fuel as [|fuel IH]; [intros; split; [reflexivity|discriminate]|]. intros st c St.
  destruct c as [|k e|k o e|k|k|k i b|c d|t c d|t c]; cbn [lib_run any_run wide_stmt_ok]; intros O.
  - split; [reflexivity|]. intros st' E. injection E as <-. exact St.
  - destruct (ex_any st e St O) as [E N]. rewrite E. destruct (any_ex st e) as [a| | | |]; cbn [bind]; try (split; [reflexivity|discriminate]).
    specialize (N a eq_refl). rewrite assign_any by (auto). destruct (any_assign (st k) a) as [x| | | |] eqn:P; cbn [bind]; try (split; [reflexivity|discriminate]). split; [reflexivity|].
    intros st' F. injection F as <-. apply upd_vec; [exact St|]. eapply any_assign_vec; [apply (St k)|exact P].
  - destruct (ex_any st e St O) as [E N]. rewrite E. destruct (any_ex st e) as [a| | | |]; cbn [bind]; try (split; [reflexivity|discriminate]).
    specialize (N a eq_refl). rewrite put_any by (exact N || apply St).
    destruct (any_put o (st k) a) as [x| | | |] eqn:P; cbn [bind]; try (split; [reflexivity|discriminate]). split; [reflexivity|].
    intros st' F. injection F as <-. apply upd_vec; [exact St|]. eapply any_put_vec; [apply St|exact P].
  - rewrite inc_any by apply St. destruct (any_step 1 (st k)) as [x| | | |] eqn:P; cbn [bind]; try (split; [reflexivity|discriminate]).
    split; [reflexivity|]. intros st' F. injection F as <-. apply upd_vec; [exact St|]. eapply any_step_vec; [apply (St k)|exact P].
  - rewrite dec_any by apply St. destruct (any_step (-1) (st k)) as [x| | | |] eqn:P; cbn [bind]; try (split; [reflexivity|discriminate]).
    split; [reflexivity|]. intros st' F. injection F as <-. apply upd_vec; [exact St|]. eapply any_step_vec; [apply (St k)|exact P].
  - rewrite set_any by (apply St || assumption). destruct (any_with_position (st k) i b) as [x| | | |] eqn:P; cbn [bind]; try (split; [reflexivity|discriminate]).
    split; [reflexivity|]. intros st' F. injection F as <-. apply upd_vec; [exact St|]. eapply any_with_position_vec; [apply (St k)|exact P].
  - destruct O as [O1 O2]. destruct (IH st c St O1) as [E N]. rewrite E. destruct (any_run fuel st c) as [s1| | | |]; cbn [bind]; try (split; [reflexivity|discriminate]).
    apply IH; [apply N; reflexivity|exact O2].
  - destruct O as (O1 & O2 & O3). rewrite test_any by assumption. destruct (any_test st t) as [b| | | |]; cbn [bind]; try (split; [reflexivity|discriminate]).
    apply IH; [exact St|]. destruct b; assumption.
  - destruct O as (O1 & O2). rewrite test_any by assumption. destruct (any_test st t) as [b| | | |]; cbn [bind]; try (split; [reflexivity|discriminate]).
    destruct b; [|split; [reflexivity|intros st' F; injection F as <-; exact St]].
    destruct (IH st c St O2) as [E N]. rewrite E. destruct (any_run fuel st c) as [s1| | | |]; cbn [bind]; try (split; [reflexivity|discriminate]).
    apply IH; [apply N; reflexivity|]. split; assumption.
Qed.
Lemma programs_any fuel st c : (forall k, vec (st k)) -> wide_stmt_ok c -> lib_run fuel st c = any_run fuel st c.
Proof. intros St O. apply run_any; assumption. Qed.
Lemma programs_any_types fuel st c st' : (forall k, vec (st k)) -> wide_stmt_ok c -> lib_run fuel st c = Ok st' -> forall k, vec (st' k).
Proof. intros St O E. destruct (run_any fuel st c St O) as [R N]. apply N. congruence. Qed.
