(** Programs run with the library as with the reference machine. *)
From Coq Require Import ZArith List Bool Lia Zify ZifyBool.
From Verif Require Import Cpp BigNum Bit Logic Spec SpecExact SpecMachine MachineProg ZBits Words BigNumProofs BigArith BitProofs BitSlice BitExt BitOps BitShift BitArith MachineProofs MachineProofs2 MachineProofs3 MachineProofs4.
Import ListNotations.
Open Scope Z_scope.
Local Ltac Zify.zify_post_hook ::= idtac.

Lemma vector_native n s z : 1 <= n <= 64 -> MachineProg.native (vector n s z).
Proof. intros H. destruct (vector_vec n s z H) as (V & W & _). split; [exact V|lia]. Qed.
Lemma written_native a z : MachineProg.native a -> MachineProg.native (written a z).
Proof. intros [V W]. destruct (written_vec a z V W) as (V' & W' & _). split; [exact V'|lia]. Qed.
Ltac inv_res E := repeat match type of E with
  | (if ?c then _ else _) = Ok _ => destruct c eqn:?; try discriminate
  end; injection E as <-.

Lemma slice_fixed_native a i j r : MachineProg.native a -> slice_fixed a i j = Ok r -> MachineProg.native r.
Proof.
  intros [V W] E. pose proof (bw_pos a). unfold slice_fixed in E. cbn zeta in E.
  destruct (negb _) eqn:Q1; [discriminate|]. destruct ((bw a =? 1) && _) eqn:Q2; [injection E as <-; apply vector_native; lia|].
  destruct (negb ((0 <=? _) && _)) eqn:Q3; [discriminate|]. injection E as <-. apply vector_native.
  apply negb_false_iff in Q3. unfold slot_of in Q3.
  assert (T : (if bw a =? 1 then 8 else storage (bw a)) <= 64).
  { destruct (bw a =? 1) eqn:X; [lia|]. destruct (storage_cases (bw a) ltac:(lia)) as (? & ? & ? & ?). lia. }
  destruct (bsgn a); lia.
Qed.
Lemma ref_un_native o a r : un_ok o -> MachineProg.native a -> ref_un o a = Ok r -> MachineProg.native r.
Proof.
  intros O N E. pose proof (bw_pos a). destruct N as [V W]. destruct o; cbn [ref_un un_ok] in *.
  - unfold negated in E. inv_res E. apply written_native. split; assumption.
  - injection E as <-. apply vector_native. lia.
  - unfold two_complement in E. inv_res E. apply vector_native. lia.
  - injection E as <-. apply written_native. split; assumption.
  - injection E as <-. apply vector_native. lia.
  - injection E as <-. apply vector_native. lia.
  - unfold resized in E. destruct (_ <? m); [injection E as <-; apply vector_native; lia|].
    destruct (m =? bw a); [inv_res E; apply vector_native; lia|].
    destruct (slice_fixed a (m - 1) 0) eqn:S; try discriminate. inv_res E. apply (slice_fixed_native a (m - 1) 0); [split; assumption|exact S].
  - apply (slice_fixed_native a i j); [split; assumption|exact E].
  - unfold slice_dynamic in E. cbn zeta in E. destruct (64 <? m) eqn:Q; [discriminate|]. destruct (negb _); [discriminate|]. injection E as <-. apply vector_native. lia.
Qed.
Lemma ref_bin_native o a b r : MachineProg.native a -> MachineProg.native b -> ref_bin o a b = Ok r -> MachineProg.native r.
Proof.
  intros [Va Wa] [Vb Wb] E. pose proof (bw_pos a). pose proof (bw_pos b). destruct (wider_le a b Wa Wb) as (W & _ & _).
  assert (C : forall op u, computed op u a b = Ok r -> MachineProg.native r) by (intros op u F; unfold computed in F; cbn zeta in F; inv_res F; apply vector_native; exact W).
  assert (D : forall op, bitwise op a b = Ok r -> MachineProg.native r) by (intros op F; unfold bitwise in F; cbn zeta in F; inv_res F; apply vector_native; exact W).
  destruct o; cbn [ref_bin] in E; try (eapply C; eassumption); try (eapply D; eassumption).
  - unfold remainder in E. cbn zeta in E. inv_res E. apply vector_native. exact W.
  - unfold shifted_left in E. inv_res E. apply vector_native. lia.
  - unfold shifted_right in E. cbn zeta in E. inv_res E; apply vector_native; lia.
  - unfold shifted_arith in E. inv_res E. apply vector_native. lia.
  - unfold joined in E. cbn zeta in E. destruct (64 <=? bw a + bw b) eqn:Q; [discriminate|]. inv_res E. apply vector_native. lia.
Qed.
Lemma un_same o a : un_ok o -> MachineProg.native a -> lib_un o a = ref_un o a.
Proof.
  intros O [V W]. destruct o; cbn [lib_un ref_un un_ok] in *.
  - apply neg_machine; assumption.
  - rewrite not_machine by assumption. reflexivity.
  - apply negate_machine; assumption.
  - rewrite mask_off_any by assumption. reflexivity.
  - unfold bit_to_signed. rewrite resign_machine by assumption. reflexivity.
  - unfold bit_to_unsigned. rewrite resign_machine by assumption. reflexivity.
  - apply extend_machine; assumption.
  - apply slice_c_machine; tauto.
  - apply slice_r_machine; tauto.
Qed.
Lemma bin_same_ref o a b : MachineProg.native a -> MachineProg.native b -> lib_bin o a b = ref_bin o a b.
Proof.
  intros [Va Wa] [Vb Wb]. destruct o; cbn [lib_bin ref_bin].
  - apply add_machine; assumption.
  - apply sub_machine; assumption.
  - apply mul_machine; assumption.
  - apply div_machine; assumption.
  - apply rem_machine; assumption.
  - apply and_machine; assumption.
  - apply or_machine; assumption.
  - apply xor_machine; assumption.
  - apply shl_machine; assumption.
  - apply shr_machine; assumption.
  - apply ashr_machine; assumption.
  - apply concat_machine; assumption.
Qed.
Lemma put_same o a b : MachineProg.native a -> MachineProg.native b -> lib_put o a b = ref_put o a b.
Proof.
  intros Na Nb. assert (K : forall op, lib_bin op a b = ref_bin op a b) by (intros op; apply bin_same_ref; assumption).
  assert (R : forall op x, ref_bin op a b = Ok x -> vec x /\ bw x <= 64) by (intros op x; apply ref_bin_native; assumption).
  destruct Na as [Va Wa].
  destruct o; try reflexivity; cbn [lib_put ref_put]; unfold bit_and_assign, bit_or_assign, bit_xor_assign.
  - apply compound_machine; auto. apply (K And). apply (R And).
  - apply compound_machine; auto. apply (K Or). apply (R Or).
  - apply compound_machine; auto. apply (K Xor). apply (R Xor).
  - apply shift_assign_machine; auto. apply (K Shl). apply (R Shl).
  - apply shift_assign_machine; auto. apply (K Shr). apply (R Shr).
Qed.
Lemma put_native o a b r : MachineProg.native a -> ref_put o a b = Ok r -> MachineProg.native r.
Proof.
  intros Na E. assert (K : forall c x, assigned c a b x = Ok r -> MachineProg.native r).
  { intros c x F. unfold assigned in F. destruct (negb _); [discriminate|]. destruct x; try discriminate. injection F as <-. apply written_native. exact Na. }
  destruct o; try discriminate; cbn [ref_put] in E; eapply K; eassumption.
Qed.
Lemma rel_same r a b : MachineProg.native a -> MachineProg.native b -> lib_rel r a b = Ok (ref_rel r a b).
Proof.
  intros [Va Wa] [Vb Wb]. destruct r; cbn [lib_rel ref_rel].
  - apply eq_machine; assumption.
  - apply ne_machine; assumption.
  - apply rel_machine; assumption.
  - apply rel_machine; assumption.
  - apply rel_machine; assumption.
  - apply rel_machine; assumption.
Qed.
Lemma new_same msb lsb s z : int_ok msb -> int_ok lsb -> width msb lsb <= 64 ->
  bit_of_arith msb lsb s z = mkBit msb lsb s (HN (store (width msb lsb) s z)) /\ MachineProg.native (mkBit msb lsb s (HN (store (width msb lsb) s z))).
Proof.
  intros M L W. assert (P : 1 <= width msb lsb) by (unfold width; lia). split.
  - unfold bit_of_arith, native_num, bit_of_native. change (vsize msb lsb) with (width msb lsb). replace (width msb lsb <=? 64) with true by lia.
    rewrite conv_store by lia. reflexivity.
  - split; [|exact W]. split; [|split; [exact M|split; [exact L|unfold bw; cbn [bmsb blsb]; lia]]].
    unfold bit_ok. cbn [bval]. unfold bsize. cbn [bmsb blsb bsgn]. change (vsize msb lsb) with (width msb lsb). replace (width msb lsb <=? 64) with true by lia. cbn [andb].
    rewrite <- conv_store by lia. apply conv_in_ity.
Qed.

Definition state_ok (st : state) : Prop := forall k, MachineProg.native (st k).
Lemma ex_same st e : state_ok st -> ex_ok e -> lib_ex st e = ref_ex st e /\ forall r, ref_ex st e = Ok r -> MachineProg.native r.
Proof.
  intros St. induction e as [k|msb lsb s z|o e IH|o e IHe f IHf]; cbn [lib_ex ref_ex ex_ok]; intros O.
  - split; [reflexivity|]. intros r E. injection E as <-. apply St.
  - destruct O as (M & L & W). destruct (new_same msb lsb s z M L W) as [E N]. split; [rewrite E; reflexivity|]. intros r F. injection F as <-. exact N.
  - destruct O as [O1 O2]. destruct (IH O2) as [E N]. rewrite E. destruct (ref_ex st e) as [a| | | |]; cbn [bind]; try (split; [reflexivity|discriminate]).
    specialize (N a eq_refl). split; [apply un_same; assumption|]. intros r. apply ref_un_native; assumption.
  - destruct O as [O1 O2]. destruct (IHe O1) as [E N]. destruct (IHf O2) as [F M]. rewrite E, F.
    destruct (ref_ex st e) as [a| | | |]; cbn [bind]; try (split; [reflexivity|discriminate]).
    destruct (ref_ex st f) as [b| | | |]; cbn [bind]; try (split; [reflexivity|discriminate]).
    specialize (N a eq_refl). specialize (M b eq_refl). split; [apply bin_same_ref; assumption|]. intros r. apply ref_bin_native; assumption.
Qed.
Lemma test_same st t : state_ok st -> test_ok t -> lib_test st t = ref_test st t.
Proof.
  intros St. destruct t as [r e f|e|e i|e]; cbn [lib_test ref_test test_ok]; intros O.
  - destruct O as [O1 O2]. destruct (ex_same st e St O1) as [E N]. destruct (ex_same st f St O2) as [F M]. rewrite E, F.
    destruct (ref_ex st e) as [a| | | |]; cbn [bind]; try reflexivity. destruct (ref_ex st f) as [b| | | |]; cbn [bind]; try reflexivity.
    apply rel_same; [apply N|apply M]; reflexivity.
  - destruct (ex_same st e St O) as [E N]. rewrite E. destruct (ref_ex st e) as [a| | | |]; cbn [bind]; try reflexivity.
    destruct (N a eq_refl). rewrite any_machine by assumption. reflexivity.
  - destruct (ex_same st e St O) as [E N]. rewrite E. destruct (ref_ex st e) as [a| | | |]; cbn [bind]; try reflexivity.
    destruct (N a eq_refl). apply get_machine; assumption.
  - destruct (ex_same st e St O) as [E N]. rewrite E. destruct (ref_ex st e) as [a| | | |]; cbn [bind]; try reflexivity.
    destruct (N a eq_refl). rewrite r_and_machine by assumption. reflexivity.
Qed.
Lemma upd_ok st k x : state_ok st -> MachineProg.native x -> state_ok (upd st k x).
Proof. intros St N j. unfold upd. destruct (Nat.eqb j k); [exact N|apply St]. Qed.
Lemma stepped_native d a r : MachineProg.native a -> stepped d a = Ok r -> MachineProg.native r.
Proof. intros N E. unfold stepped in E. cbn zeta in E. destruct (negb _); [discriminate|]. injection E as <-. apply written_native. exact N. Qed.
Lemma position_native a i b r : MachineProg.native a -> with_position a i b = Ok r -> MachineProg.native r.
Proof. intros N E. unfold with_position in E. cbn zeta in E. destruct (_ && _); [|discriminate]. injection E as <-. apply written_native. exact N. Qed.

Lemma run_same fuel : forall st c, state_ok st -> stmt_ok c ->
  lib_run fuel st c = ref_run fuel st c /\ forall st', ref_run fuel st c = Ok st' -> state_ok st'.
Proof.
  induction fuel as [|fuel IH]; [intros; split; [reflexivity|discriminate]|]. intros st c St.
  destruct c as [|k e|k o e|k|k|k i b|c d|t c d|t c]; cbn [lib_run ref_run stmt_ok]; intros O.
  - split; [reflexivity|]. intros st' E. injection E as <-. exact St.
  - destruct (ex_same st e St O) as [E N]. rewrite E. destruct (ref_ex st e) as [a| | | |]; cbn [bind]; try (split; [reflexivity|discriminate]).
    destruct (N a eq_refl) as [Va Wa]. destruct (St k) as [Vk Wk]. rewrite assign_machine by assumption. cbn [bind]. split; [reflexivity|].
    intros st' F. injection F as <-. apply upd_ok; [exact St|]. apply written_native. apply St.
  - destruct (ex_same st e St O) as [E N]. rewrite E. destruct (ref_ex st e) as [a| | | |]; cbn [bind]; try (split; [reflexivity|discriminate]).
    specialize (N a eq_refl). rewrite put_same by (exact N || apply St).
    destruct (ref_put o (st k) a) as [x| | | |] eqn:P; cbn [bind]; try (split; [reflexivity|discriminate]). split; [reflexivity|].
    intros st' F. injection F as <-. apply upd_ok; [exact St|]. eapply put_native; [apply St|exact P].
  - destruct (St k) as [Vk Wk]. rewrite inc_machine by assumption. destruct (stepped 1 (st k)) as [x| | | |] eqn:P; cbn [bind]; try (split; [reflexivity|discriminate]).
    split; [reflexivity|]. intros st' F. injection F as <-. apply upd_ok; [exact St|]. eapply stepped_native; [apply St|exact P].
  - destruct (St k) as [Vk Wk]. rewrite dec_machine by assumption. destruct (stepped (-1) (st k)) as [x| | | |] eqn:P; cbn [bind]; try (split; [reflexivity|discriminate]).
    split; [reflexivity|]. intros st' F. injection F as <-. apply upd_ok; [exact St|]. eapply stepped_native; [apply St|exact P].
  - destruct (St k) as [Vk Wk]. rewrite set_machine by assumption. destruct (with_position (st k) i b) as [x| | | |] eqn:P; cbn [bind]; try (split; [reflexivity|discriminate]).
    split; [reflexivity|]. intros st' F. injection F as <-. apply upd_ok; [exact St|]. eapply position_native; [apply St|exact P].
  - destruct O as [O1 O2]. destruct (IH st c St O1) as [E N]. rewrite E. destruct (ref_run fuel st c) as [s1| | | |]; cbn [bind]; try (split; [reflexivity|discriminate]).
    apply IH; [apply N; reflexivity|exact O2].
  - destruct O as (O1 & O2 & O3). rewrite test_same by assumption. destruct (ref_test st t) as [b| | | |]; cbn [bind]; try (split; [reflexivity|discriminate]).
    apply IH; [exact St|]. destruct b; assumption.
  - destruct O as (O1 & O2). rewrite test_same by assumption. destruct (ref_test st t) as [b| | | |]; cbn [bind]; try (split; [reflexivity|discriminate]).
    destruct b; [|split; [reflexivity|intros st' F; injection F as <-; exact St]].
    destruct (IH st c St O2) as [E N]. rewrite E. destruct (ref_run fuel st c) as [s1| | | |]; cbn [bind]; try (split; [reflexivity|discriminate]).
    apply IH; [apply N; reflexivity|]. split; assumption.
Qed.
Lemma programs_machine fuel st c : (forall k, MachineProg.native (st k)) -> stmt_ok c -> lib_run fuel st c = ref_run fuel st c.
Proof. intros St O. apply run_same; assumption. Qed.
Lemma programs_types fuel st c st' : (forall k, MachineProg.native (st k)) -> stmt_ok c -> lib_run fuel st c = Ok st' -> forall k, MachineProg.native (st' k).
Proof. intros St O E. destruct (run_same fuel st c St O) as [R N]. apply N. congruence. Qed.
Lemma bits_assign_machine a b : vec a -> vec b -> bw a <= 64 -> bw b <= 64 ->
  bit_and_assign a b = assigned true a b (bitwise Z.land a b) /\ bit_or_assign a b = assigned true a b (bitwise Z.lor a b) /\
  bit_xor_assign a b = assigned true a b (bitwise Z.lxor a b).
Proof.
  intros Va Vb Wa Wb. assert (Na : MachineProg.native a) by (split; assumption). assert (Nb : MachineProg.native b) by (split; assumption).
  exact (conj (put_same And a b Na Nb) (conj (put_same Or a b Na Nb) (put_same Xor a b Na Nb))).
Qed.
Lemma shifts_assign_machine a b : vec a -> vec b -> bw a <= 64 -> bw b <= 64 ->
  bit_shift_assign bit_shl a b = assigned false a b (shifted_left a b) /\ bit_shift_assign bit_shr a b = assigned false a b (shifted_right a b).
Proof.
  intros Va Vb Wa Wb. assert (Na : MachineProg.native a) by (split; assumption). assert (Nb : MachineProg.native b) by (split; assumption).
  exact (conj (put_same Shl a b Na Nb) (put_same Shr a b Na Nb)).
Qed.
Lemma eq_ne_machine a b : vec a -> vec b -> bw a <= 64 -> bw b <= 64 -> bit_eq a b = Ok (equal_native a b) /\ bit_ne a b = Ok (negb (equal_native a b)).
Proof. intros. split; [apply eq_machine|apply ne_machine]; assumption. Qed.
Lemma order_machine a b : vec a -> vec b -> bw a <= 64 -> bw b <= 64 ->
  bit_lt a b = Ok (ordered Z.ltb a b) /\ bit_le a b = Ok (ordered Z.leb a b) /\
  bit_gt a b = Ok (ordered Z.gtb a b) /\ bit_ge a b = Ok (ordered Z.geb a b).
Proof. intros. repeat split; apply rel_machine; assumption. Qed.
Lemma queries_machine a : vec a -> bw a <= 64 ->
  bit_any_set a = negb (stored a =? 0) /\ bit_r_and a = all_ones a /\ bit_highest_bit a = top_one a /\ bit_to_uint64 a = stored a mod 2 ^ 64.
Proof.
  intros V W. split; [apply any_machine; assumption|]. split; [apply r_and_machine; assumption|]. split; [apply highest_machine; assumption|].
  destruct (vec_cases a V) as [(x & E & N & I & S) | (x & E & N & _)]; [|lia]. unfold bit_to_uint64. rewrite E, S. reflexivity.
Qed.
Lemma sign_machine a : vec a -> bw a <= 64 -> bit_to_signed a = vector (bw a) true (stored a) /\ bit_to_unsigned a = vector (bw a) false (stored a).
Proof. intros. split; apply resign_machine; assumption. Qed.
