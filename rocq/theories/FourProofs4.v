(** Programs over 2-state and 4-state vectors run the same on the library and on the reference machines. *)
From Coq Require Import ZArith List Bool Lia Zify ZifyBool.
From Verif Require Import Cpp BigNum Bit Logic Spec SpecExact SpecMachine SpecWide SpecFour MachineProg WideProg FourProg ZBits Words BigNumProofs BitProofs MachineProofs WideProofs WideProofs3 WideProofs4 WideProofs5 Reach ReachProofs ReachProofs2 ReachProofs4 FourProofs FourProofs2 FourProofs3.
Import ListNotations.
Open Scope Z_scope.
Local Ltac Zify.zify_post_hook ::= idtac.

Lemma of_bit_four msb lsb s b : declarable msb lsb -> vec b -> logic_of_bit msb lsb s b = four_of_bit msb lsb s b.
Proof.
  intros D V. unfold logic_of_bit, four_of_bit, bit_convert. rewrite zero_object. destruct ((bmsb b =? msb) && (blsb b =? lsb)) eqn:Q; cbn [andb requires]; [|reflexivity].
  apply andb_true_iff in Q as [Q1 Q2]. apply Z.eqb_eq in Q1, Q2. unfold object4. destruct (Bool.eqb (bsgn b) s) eqn:E; cbn [bind].
  - apply Bool.eqb_prop in E. replace (bsgn b || negb s) with true by (rewrite E; destruct s; reflexivity). cbn [bind]. rewrite (as_object b V) at 1. rewrite Q1, Q2, E. reflexivity.
  - destruct (bsgn b) eqn:B; cbn [orb].
    + assert (G : (let! h := holder_assign (vsize msb lsb) s b in Ok (mkBit msb lsb s h)) = Ok (object msb lsb s (stored b))).
      { change (bit_assign (bit_zero msb lsb s) b = Ok (object msb lsb s (stored b))). destruct (is_zero msb lsb s D) as (VZ & MZ & LZ & SZ0). rewrite assign_same; [|exact VZ|exact V|].
        - unfold rewritten. rewrite MZ, LZ, SZ0. reflexivity.
        - unfold bw. rewrite MZ, LZ, Q1, Q2. reflexivity. }
      rewrite G. reflexivity.
    + destruct s; [reflexivity|discriminate].
Qed.
Lemma un_four o a : un4_ok o -> lvec a -> lib4_un o a = four_un o a.
Proof.
  intros O L. destruct o; cbn [lib4_un four_un un4_ok] in *.
  - apply neg_four; assumption.
  - rewrite plus_four by assumption. reflexivity.
  - apply not_four; assumption.
  - rewrite lnot_four by assumption. reflexivity.
  - apply sign_four; assumption.
  - apply sign_four; assumption.
  - apply widen_four; assumption.
  - apply slice_four; tauto.
  - apply slice_dynamic_four; tauto.
  - apply get_four; assumption.
  - apply r_and_four; assumption.
  - apply r_or_four; assumption.
  - apply r_xor_four; assumption.
  - apply r_nand_four; assumption.
  - apply r_nor_four; assumption.
  - apply r_xnor_four; assumption.
Qed.
Lemma un_four_vec o a r : un4_ok o -> lvec a -> lib4_un o a = Ok r -> lvec r.
Proof.
  intros O L E. destruct o; cbn [lib4_un un4_ok] in *; try (injection E as <-).
  - apply (neg_lvec _ _ L E).
  - apply plus_lvec, L.
  - apply (not_lvec _ _ L E).
  - apply lnot_lvec.
  - apply (lresign_lvec _ _ _ L E).
  - apply (lresign_lvec _ _ _ L E).
  - apply (extend_lvec _ _ _ L O E).
  - apply (slice_lvec _ _ _ _ L E).
  - apply (slice_at_lvec _ _ _ _ _ L (proj1 O) E).
  - apply (get_lvec _ _ _ L E).
  - apply (r_and_lvec _ _ _ E).
  - apply (r_or_lvec _ _ _ E).
  - apply (r_xor_lvec _ _ E).
  - unfold logic_r_nand in E. inv_ok E. injection E as <-. apply lnot_lvec.
  - unfold logic_r_nor in E. inv_ok E. injection E as <-. apply lnot_lvec.
  - unfold logic_r_xnor in E. inv_ok E. injection E as <-. apply lnot_lvec.
Qed.
Lemma bin_four o a b : lvec a -> lvec b -> lib4_bin o a b = four_bin o a b.
Proof.
  intros La Lb. destruct o; cbn [lib4_bin four_bin].
  - apply add_four; assumption.
  - apply sub_four; assumption.
  - apply mul_four; assumption.
  - apply div_four; assumption.
  - apply rem_four; assumption.
  - apply and_four; assumption.
  - apply or_four; assumption.
  - apply xor_four; assumption.
  - apply shl_four; assumption.
  - apply shr_four; assumption.
  - apply ashr_four; assumption.
  - apply eq_four; assumption.
  - apply ne_four; assumption.
  - apply lt_four; assumption.
  - apply le_four; assumption.
  - apply gt_four; assumption.
  - apply ge_four; assumption.
  - apply join_four; assumption.
Qed.
Lemma bin_four_vec o a b r : lvec a -> lvec b -> lib4_bin o a b = Ok r -> lvec r.
Proof.
  intros L K E. destruct o; cbn [lib4_bin] in E.
  - apply (goodl_arith _ _ good_add _ _ _ L K E).
  - apply (goodl_arith _ _ good_sub _ _ _ L K E).
  - apply (goodl_arith _ _ good_mul _ _ _ L K E).
  - apply (goodl_arith _ _ good_div _ _ _ L K E).
  - apply (goodl_arith _ _ good_rem _ _ _ L K E).
  - apply (goodl_and _ _ _ L K E).
  - apply (goodl_or _ _ _ L K E).
  - apply (goodl_xor _ _ _ L K E).
  - apply (goodl_shift _ good_shl _ _ _ L K E).
  - apply (goodl_shift _ good_shr _ _ _ L K E).
  - apply (goodl_shift _ good_ashr _ _ _ L K E).
  - apply (goodl_cmp _ _ _ _ L K E).
  - apply (goodl_cmp _ _ _ _ L K E).
  - apply (goodl_cmp _ _ _ _ L K E).
  - apply (goodl_cmp _ _ _ _ L K E).
  - apply (goodl_cmp _ _ _ _ L K E).
  - apply (goodl_cmp _ _ _ _ L K E).
  - apply (concat_lvec _ _ _ L K E).
Qed.
Lemma put_four_op o a b : lvec a -> lvec b -> lib4_put o a b = four_put o a b.
Proof.
  intros La Lb. assert (K : forall op, lib4_bin op a b = four_bin op a b) by (intros op; apply bin_four; assumption).
  assert (R : forall op x, four_bin op a b = Ok x -> lvec x) by (intros op x; rewrite <- K; apply bin_four_vec; assumption).
  destruct o; try reflexivity; cbn [lib4_put four_put].
  - apply compound_four; [apply (K BAnd)|apply (R BAnd)|exact La].
  - apply compound_four; [apply (K BOr)|apply (R BOr)|exact La].
  - apply compound_four; [apply (K BXor)|apply (R BXor)|exact La].
  - apply compound_four; [apply (K BShl)|apply (R BShl)|exact La].
  - apply compound_four; [apply (K BShr)|apply (R BShr)|exact La].
Qed.
Lemma put_four_vec o a b r : lvec a -> lvec b -> lib4_put o a b = Ok r -> lvec r.
Proof.
  intros L K E. destruct o; try discriminate; cbn [lib4_put] in E.
  - apply (goodl_compound _ goodl_and _ _ _ L K E).
  - apply (goodl_compound _ goodl_or _ _ _ L K E).
  - apply (goodl_compound _ goodl_xor _ _ _ L K E).
  - apply (goodl_compound _ (goodl_shift _ good_shl) _ _ _ L K E).
  - apply (goodl_compound _ (goodl_shift _ good_shr) _ _ _ L K E).
Qed.
Lemma ex_four st e : state4_ok st -> ex4_ok e -> lib4_ex st e = four_ex st e /\ forall r, lib4_ex st e = Ok r -> lvec r.
Proof.
  intros [S2 S4]. induction e as [k|msb lsb s z|msb lsb s|msb lsb s e|o e IH|o e IHe f IHf|e IHe f]; cbn [lib4_ex four_ex ex4_ok]; intros O.
  - split; [reflexivity|]. intros r E. injection E as <-. apply S4.
  - destruct O as [(M & L & W) R]. split.
    + unfold logic_of_arith, certain. rewrite new_any, zero_object by assumption. reflexivity.
    + intros r E. injection E as <-. apply number_lvec. split; [exact M|split; [exact L|exact W]].
  - destruct O as (M & L & W). assert (D : declarable msb lsb) by (split; [exact M|split; [exact L|exact W]]). split; [rewrite default_object by exact D; reflexivity|].
    intros r E. injection E as <-. apply default_lvec. exact D.
  - destruct O as [(M & L & W) R]. assert (D : declarable msb lsb) by (split; [exact M|split; [exact L|exact W]]). destruct (ex_any (two st) e S2 R) as [E N]. rewrite E.
    destruct (any_ex (two st) e) as [a| | | |]; cbn [bind]; try (split; [reflexivity|discriminate]). specialize (N a eq_refl). split; [apply of_bit_four; assumption|]. intros r. apply of_bit_lvec; assumption.
  - destruct O as [O1 O2]. destruct (IH O2) as [E N]. rewrite <- E. destruct (lib4_ex st e) as [a| | | |]; cbn [bind]; try (split; [reflexivity|discriminate]).
    specialize (N a eq_refl). split; [apply un_four; assumption|]. intros r. apply un_four_vec; assumption.
  - destruct O as [O1 O2]. destruct (IHe O1) as [E N]. destruct (IHf O2) as [F M]. rewrite <- E, <- F.
    destruct (lib4_ex st e) as [a| | | |]; cbn [bind]; try (split; [reflexivity|discriminate]).
    destruct (lib4_ex st f) as [b| | | |]; cbn [bind]; try (split; [reflexivity|discriminate]).
    specialize (N a eq_refl). specialize (M b eq_refl). split; [apply bin_four; assumption|]. intros r. apply bin_four_vec; assumption.
  - destruct O as [O1 O2]. destruct (IHe O1) as [E N]. destruct (ex_any (two st) f S2 O2) as [F M]. rewrite <- E, F.
    destruct (lib4_ex st e) as [a| | | |]; cbn [bind]; try (split; [reflexivity|discriminate]).
    destruct (any_ex (two st) f) as [b| | | |]; cbn [bind]; try (split; [reflexivity|discriminate]).
    specialize (N a eq_refl). specialize (M b eq_refl). split; [apply join_bit_four; assumption|]. intros r. apply concat_bit_lvec; assumption.
Qed.
Lemma test_four st t : state4_ok st -> test4_ok t -> lib4_test st t = four_test st t.
Proof.
  intros St. destruct t as [e|e f|e f|t]; cbn [lib4_test four_test test4_ok]; intros O.
  - destruct (ex_four st e St O) as [E N]. rewrite <- E. destruct (lib4_ex st e) as [a| | | |]; cbn [bind]; try reflexivity. rewrite bool_four by (apply N; reflexivity). reflexivity.
  - destruct O as [O1 O2]. destruct (ex_four st e St O1) as [E N]. destruct (ex_four st f St O2) as [F M]. rewrite <- E, <- F.
    destruct (lib4_ex st e) as [a| | | |]; cbn [bind]; try reflexivity. destruct (lib4_ex st f) as [b| | | |]; cbn [bind]; try reflexivity. apply match_four; auto.
  - destruct O as [O1 O2]. destruct (ex_four st e St O1) as [E N]. destruct (ex_four st f St O2) as [F M]. rewrite <- E, <- F.
    destruct (lib4_ex st e) as [a| | | |]; cbn [bind]; try reflexivity. destruct (lib4_ex st f) as [b| | | |]; cbn [bind]; try reflexivity. unfold logic_nmatch. rewrite match_four by auto. reflexivity.
  - apply test_any; [apply St|exact O].
Qed.
Lemma upd4_ok st k x : state4_ok st -> lvec x -> state4_ok (upd4 st k x).
Proof. intros [S2 S4] L. split; [exact S2|]. intros j. unfold upd4. cbn [four]. destruct (Nat.eqb j k); [exact L|apply S4]. Qed.
Lemma mark_four a i c : lvec a -> int_ok i -> lib4_mark a i c = four_put_at a i c.
Proof.
  intros L I0. destruct c; cbn [lib4_mark].
  - apply (set_four a i false); assumption.
  - apply (set_four a i true); assumption.
  - apply set_x_four; assumption.
  - apply set_z_four; assumption.
Qed.
Lemma mark_vec a i c r : lvec a -> lib4_mark a i c = Ok r -> lvec r.
Proof.
  intros L E. destruct c; cbn [lib4_mark] in E.
  - apply (set_lvec _ _ _ _ L E).
  - apply (set_lvec _ _ _ _ L E).
  - apply (set_x_lvec _ _ _ L E).
  - apply (set_z_lvec _ _ _ L E).
Qed.
Lemma one_bit_lw a : one_bit a = true -> lw a = 1.
Proof. unfold one_bit. intros H. apply andb_true_iff in H as [H _]. apply andb_true_iff in H as [H1 H2]. apply Z.eqb_eq in H1, H2. unfold lw, bw, lmsb, llsb in *. rewrite H1, H2. reflexivity. Qed.
Lemma run_four fuel : forall st c, state4_ok st -> stmt4_ok c -> lib4_run fuel st c = four_run fuel st c /\ forall st', lib4_run fuel st c = Ok st' -> state4_ok st'.
Proof.
  induction fuel as [|fuel IH]; [intros; split; [reflexivity|discriminate]|]. intros st c St. pose proof St as [S2 S4].
  destruct c as [|k e|k o e|k|k|k i s|k i e|c|c d|t c d|t c]; cbn [lib4_run four_run stmt4_ok]; intros O.
  - split; [reflexivity|]. intros st' E. injection E as <-. exact St.
  - destruct (ex_four st e St O) as [E N]. rewrite <- E. destruct (lib4_ex st e) as [a| | | |]; cbn [bind]; try (split; [reflexivity|discriminate]). specialize (N a eq_refl).
    rewrite <- assign_four by (exact N || apply S4). destruct (logic_assign (four st k) a) as [x| | | |] eqn:P; cbn [bind]; try (split; [reflexivity|discriminate]). split; [reflexivity|].
    intros st' F. injection F as <-. apply upd4_ok; [exact St|]. apply (assign_lvec _ _ _ (S4 k) N P).
  - destruct (ex_four st e St O) as [E N]. rewrite <- E. destruct (lib4_ex st e) as [a| | | |]; cbn [bind]; try (split; [reflexivity|discriminate]). specialize (N a eq_refl).
    rewrite <- put_four_op by (exact N || apply S4). destruct (lib4_put o (four st k) a) as [x| | | |] eqn:P; cbn [bind]; try (split; [reflexivity|discriminate]). split; [reflexivity|].
    intros st' F. injection F as <-. apply upd4_ok; [exact St|]. apply (put_four_vec _ _ _ _ (S4 k) N P).
  - rewrite <- inc_four by apply S4. destruct (logic_inc (four st k)) as [x| | | |] eqn:P; cbn [bind]; try (split; [reflexivity|discriminate]). split; [reflexivity|].
    intros st' F. injection F as <-. apply upd4_ok; [exact St|]. unfold logic_inc in P. inv_ok P. apply (assign_lvec _ _ _ (S4 k) (goodl_arith _ _ good_add _ _ _ (S4 k) one_lvec E) P).
  - rewrite <- dec_four by apply S4. destruct (logic_dec (four st k)) as [x| | | |] eqn:P; cbn [bind]; try (split; [reflexivity|discriminate]). split; [reflexivity|].
    intros st' F. injection F as <-. apply upd4_ok; [exact St|]. unfold logic_dec in P. inv_ok P. apply (assign_lvec _ _ _ (S4 k) (goodl_arith _ _ good_sub _ _ _ (S4 k) one_lvec E) P).
  - rewrite <- mark_four by (exact O || apply S4). destruct (lib4_mark (four st k) i s) as [x| | | |] eqn:P; cbn [bind]; try (split; [reflexivity|discriminate]). split; [reflexivity|].
    intros st' F. injection F as <-. apply upd4_ok; [exact St|]. apply (mark_vec _ _ _ _ (S4 k) P).
  - destruct O as [I0 O]. destruct (ex_four st e St O) as [E N]. rewrite <- E. destruct (lib4_ex st e) as [a| | | |]; cbn [bind]; try (split; [reflexivity|discriminate]). specialize (N a eq_refl).
    destruct (one_bit a) eqn:Q; [|split; [reflexivity|discriminate]]. unfold symbol. rewrite <- set_l_four by (try exact N; try exact I0; try apply S4; apply one_bit_lw; exact Q).
    destruct (logic_set_l (four st k) i a) as [x| | | |] eqn:P; cbn [bind]; try (split; [reflexivity|discriminate]). split; [reflexivity|].
    intros st' F. injection F as <-. apply upd4_ok; [exact St|]. apply (set_l_lvec _ _ _ _ (S4 k) P).
  - rewrite <- programs_any by assumption. destruct (lib_run fuel (two st) c) as [x| | | |] eqn:P; cbn [bind]; try (split; [reflexivity|discriminate]). split; [reflexivity|].
    intros st' F. injection F as <-. split; [|exact S4]. cbn [two]. apply (programs_any_types fuel (two st) c x S2 O P).
  - destruct O as [O1 O2]. destruct (IH st c St O1) as [E N]. rewrite <- E. destruct (lib4_run fuel st c) as [s1| | | |]; cbn [bind]; try (split; [reflexivity|discriminate]).
    apply IH; [apply N; reflexivity|exact O2].
  - destruct O as (O1 & O2 & O3). rewrite test_four by assumption. destruct (four_test st t) as [b| | | |]; cbn [bind]; try (split; [reflexivity|discriminate]).
    apply IH; [exact St|]. destruct b; assumption.
  - destruct O as (O1 & O2). rewrite test_four by assumption. destruct (four_test st t) as [b| | | |]; cbn [bind]; try (split; [reflexivity|discriminate]).
    destruct b; [|split; [reflexivity|intros st' F; injection F as <-; exact St]].
    destruct (IH st c St O2) as [E N]. rewrite <- E. destruct (lib4_run fuel st c) as [s1| | | |]; cbn [bind]; try (split; [reflexivity|discriminate]).
    apply IH; [apply N; reflexivity|]. split; assumption.
Qed.
Lemma programs_four fuel st c : state4_ok st -> stmt4_ok c -> lib4_run fuel st c = four_run fuel st c.
Proof. intros St O. apply run_four; assumption. Qed.
Lemma programs_four_types fuel st c st' : state4_ok st -> stmt4_ok c -> lib4_run fuel st c = Ok st' -> state4_ok st'.
Proof. intros St O E. apply (proj2 (run_four fuel st c St O)). exact E. Qed.
