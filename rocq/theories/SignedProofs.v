(** Programs over signed vectors of one width run in lockstep with the programs over integers of SpecSigned.v. *)
From Coq Require Import ZArith List Bool Lia.
From Verif Require Import Cpp ZBits BigNum Bit Spec SpecExact SpecMachine SpecWide MachineProg WideProg BitMain WideProofs WideProofs2 WideProofs5 SpecSigned.
From Verif Require FourProofs2 BitOps Iff5.
Import ListNotations.
Open Scope Z_scope.
Local Ltac Zify.zify_post_hook ::= idtac.

Lemma around_wrap w z : around w z = wrap true w z. Proof. reflexivity. Qed.
Lemma within_fit w z : within w z = fitting w z. Proof. reflexivity. Qed.
Lemma within_iff w z : within w z = true <-> - 2 ^ (w - 1) <= z < 2 ^ (w - 1).
Proof. unfold within. rewrite andb_true_iff, Z.leb_le, Z.ltb_lt. reflexivity. Qed.
Lemma pow_half w : 1 <= w -> 2 ^ w = 2 * 2 ^ (w - 1).
Proof. intros. replace w with (Z.succ (w - 1)) at 1 by lia. rewrite Z.pow_succ_r by lia. reflexivity. Qed.
Lemma around_in w z : 1 <= w -> within w (around w z) = true.
Proof.
  intros W. apply within_iff. unfold around. pose proof (pow_half w W). pose proof (Z.pow_pos_nonneg 2 (w - 1) ltac:(lia) ltac:(lia)).
  pose proof (Z.mod_pos_bound (z + 2 ^ (w - 1)) (2 ^ w) ltac:(lia)). lia.
Qed.
Lemma around_id w z : 1 <= w -> within w z = true -> around w z = z.
Proof.
  intros W Z0. apply within_iff in Z0. unfold around. pose proof (pow_half w W). rewrite Z.mod_small; lia.
Qed.

Section Width.
Variable n : Z.
Hypothesis Hn : 2 <= n <= 64.
Let V z := vec_of n true z.
Let ok z := within (storage n) z = true.

Lemma st_range : n <= storage n /\ storage n <= computing n /\ 8 <= storage n <= 64 /\ (16 < n -> storage n = computing n) /\ (n <= 16 -> storage n <= 16 /\ computing n = 32).
Proof.
  unfold storage, computing. repeat match goal with |- context [if ?c then _ else _] => destruct c eqn:? end; lia.
Qed.
Lemma V_vec z : vec (V z). Proof. apply vec_of_vec. lia. Qed.
Lemma V_bw z : bw (V z) = n. Proof. apply vec_of_bw. lia. Qed.
Lemma V_small z : small (V z) = true. Proof. unfold small. rewrite V_bw. lia. Qed.
Lemma V_raw z : stored (V z) = around (storage n) z.
Proof.
  unfold V. rewrite vec_of_small by lia. unfold stored, vector. cbn [bval]. unfold store. replace (n =? 1) with false by lia. reflexivity.
Qed.
Lemma V_ok z : ok (stored (V z)).
Proof. rewrite V_raw. apply around_in. pose proof st_range. lia. Qed.
Lemma V_stored z : ok z -> stored (V z) = z.
Proof. intros O. rewrite V_raw. apply around_id; [pose proof st_range; lia|exact O]. Qed.
Lemma V_norm z : V z = V (around (storage n) z).
Proof.
  rewrite <- V_raw. pose proof (FourProofs2.stored_object_vec _ (V_vec z)) as E. unfold rewritten in E. symmetry. exact E.
Qed.
Lemma V_state b : typed b n true -> b = V (stored b) /\ ok (stored b).
Proof.
  intros (Vb & (M & L) & Sg). pose proof (FourProofs2.stored_object_vec _ Vb) as E. unfold rewritten in E. rewrite M, L, Sg in E. fold (vec_of n true (stored b)) in E.
  split; [symmetry; exact E|]. rewrite <- E at 1. apply V_ok.
Qed.
Lemma V_typed z : typed (V z) n true. Proof. split; [apply V_vec|]. split; [split; reflexivity|reflexivity]. Qed.
Lemma V_pairs x y : pairs_up (V x) (V y) = true.
Proof. unfold pairs_up. rewrite !V_bw, Z.eqb_refl. cbn. lia. Qed.
Lemma V_wider x y : wider (V x) (V y) = n. Proof. unfold wider. rewrite !V_bw. lia. Qed.
Lemma V_vector z : vector n true z = V z. Proof. symmetry. apply vec_of_small. lia. Qed.
Lemma V_store z : store n true z = around (storage n) z. Proof. unfold store. replace (n =? 1) with false by lia. reflexivity. Qed.
Lemma V_written x z : written (V x) z = V z.
Proof. unfold written. rewrite V_bw. exact (V_vector z). Qed.

(** intermediate results are computed in 32 or 64 bits *)
Lemma settle_computed z : (n <= 16 -> fitting 32 z = true) ->
  (if negb (fitting (computing n) z) then UB else Ok (V z)) = omap V (settle n z).
Proof.
  intros F. unfold settle. destruct st_range as (_ & _ & R & A & B). destruct (Z.leb_spec n 16) as [L|L].
  - destruct (B L) as [_ ->]. rewrite (F L). cbn [negb]. destruct (within (storage n) z) eqn:Q; [reflexivity|]. cbn. rewrite <- V_norm. reflexivity.
  - rewrite <- (A L). change (within (storage n) z) with (fitting (storage n) z). destruct (fitting (storage n) z); reflexivity.
Qed.
Lemma settle_ok z r : settle n z = Ok r -> ok r.
Proof.
  unfold settle. destruct (within (storage n) z) eqn:Q; [intros E; injection E as <-; exact Q|]. destruct (n <=? 16); [|discriminate].
  intros E. injection E as <-. apply around_in. pose proof st_range. lia.
Qed.
Lemma ok16 z : n <= 16 -> ok z -> - 2 ^ 15 <= z < 2 ^ 15.
Proof.
  intros L O. apply within_iff in O. destruct st_range as (_ & _ & R & _ & B). destruct (B L) as [S16 _].
  assert (2 ^ (storage n - 1) <= 2 ^ 15) by (apply Z.pow_le_mono_r; lia). lia.
Qed.
Lemma fit32 z : - 2 ^ 31 <= z < 2 ^ 31 -> fitting 32 z = true.
Proof. intros H. apply (within_iff 32). exact H. Qed.
Lemma V_computed op u x y : ok x -> ok y -> (n <= 16 -> u = false -> fitting 32 (op x y) = true) ->
  computed op u (V x) (V y) = if u then UB else omap V (settle n (op x y)).
Proof.
  intros X Y F. unfold computed. rewrite V_pairs, V_wider. cbn [negb]. change (bsgn (V x)) with true. change (bsgn (V y)) with true.
  change (both_signed (V x) (V y)) with true. unfold operand, with_sign. cbn [andb]. rewrite orb_true_r, !V_stored by assumption. cbn [andb].
  rewrite V_vector. destruct u; [reflexivity|]. cbn [orb]. apply settle_computed. intros L. apply F; [exact L|reflexivity].
Qed.
Lemma quot_bound x y : y <> 0 -> Z.abs (Z.quot x y) <= Z.abs x.
Proof. intros H. pose proof (Z.quot_abs x y H) as E. rewrite <- E. rewrite Z.quot_div_nonneg by lia. apply Z.div_le_upper_bound; nia. Qed.
Lemma rem_in x y : ok x -> y <> 0 -> ok (Z.rem x y).
Proof.
  intros X Y. apply within_iff. apply within_iff in X. pose proof (Z.rem_abs x y Y) as E. rewrite Z.rem_mod_nonneg in E by lia. pose proof (Z.mod_le (Z.abs x) (Z.abs y) ltac:(lia) ltac:(lia)).
  destruct (Z.le_gt_cases 0 x) as [P|P].
  - pose proof (Z.rem_nonneg x y Y P). lia.
  - pose proof (Z.rem_nonpos x y Y ltac:(lia)). lia.
Qed.
Lemma bits_in op x y : op = Z.land \/ op = Z.lor \/ op = Z.lxor -> ok x -> ok y -> ok (op x y).
Proof.
  intros O X Y. apply within_iff in X, Y. apply within_iff. pose proof st_range. destruct O as [-> | [-> | ->]].
  - apply BitOps.land_range_s; [lia|exact X|exact Y].
  - apply BitOps.lor_range_s; [lia|exact X|exact Y].
  - apply BitOps.lxor_range_s; [lia|exact X|exact Y].
Qed.
Lemma div_in x k : ok x -> 0 <= k -> ok (x / 2 ^ k).
Proof.
  intros X K. apply within_iff. apply within_iff in X. pose proof (Z.pow_pos_nonneg 2 k ltac:(lia) K). split.
  - apply Z.div_le_lower_bound; nia.
  - apply Z.div_lt_upper_bound; nia.
Qed.
Lemma V_bitwise op c x y : op = Z.land \/ op = Z.lor \/ op = Z.lxor -> ok x -> ok y -> any_bitwise op c (V x) (V y) = Ok (V (op x y)).
Proof.
  intros O X Y. unfold any_bitwise. rewrite !V_small. cbn [andb]. unfold bitwise. cbn zeta. rewrite V_pairs, V_wider, !V_bw, Z.eqb_refl, !V_stored by assumption. cbn [negb].
  change (both_signed (V x) (V y)) with true. rewrite V_vector. reflexivity.
Qed.
Lemma bin_signed o x y : o <> Join -> ok x -> ok y -> any_bin o (V x) (V y) = omap V (signed_bin n o x y) /\ forall z, signed_bin n o x y = Ok z -> ok z.
Proof.
  intros J X Y. pose proof st_range as (R1 & R2 & R3 & R4 & R5).
  assert (B16 : n <= 16 -> - 2 ^ 15 <= x < 2 ^ 15 /\ - 2 ^ 15 <= y < 2 ^ 15) by (intros; split; apply ok16; assumption).
  assert (Sh : 0 <= y < computing n -> store n true y = y) by (intros; rewrite V_store; apply around_id; [lia|exact Y]).
  assert (Bs : both_signed (V x) (V y) = true) by reflexivity.
  destruct o; try contradiction; cbn [any_bin signed_bin].
  - unfold any_sum. rewrite !V_small. cbn [andb]. rewrite V_computed; [|exact X|exact Y|intros L _; apply fit32; specialize (B16 L); lia].
    split; [reflexivity|apply settle_ok].
  - unfold any_difference. rewrite !V_small. cbn [andb]. rewrite V_computed; [|exact X|exact Y|intros L _; apply fit32; specialize (B16 L); lia].
    split; [reflexivity|apply settle_ok].
  - unfold any_product. rewrite !V_small. cbn [andb]. cbn zeta. rewrite V_computed; [|exact X|exact Y|intros L _; apply fit32; specialize (B16 L); nia].
    split; [reflexivity|apply settle_ok].
  - unfold any_quotient. rewrite !V_small. cbn [andb]. rewrite (V_stored y Y). rewrite V_computed; [|exact X|exact Y|].
    + destruct (y =? 0); [split; [reflexivity|discriminate]|]. split; [reflexivity|apply settle_ok].
    + intros L E. apply fit32. specialize (B16 L). apply Z.eqb_neq in E. destruct B16 as [Bx By]. pose proof (quot_bound x y E) as Q. apply Z.abs_le in Q. lia.
  - unfold any_remainder. rewrite !V_small. cbn [andb]. unfold remainder. cbn zeta. rewrite V_pairs, V_wider. cbn [negb]. unfold operand, with_sign.
    change (bsgn (V x)) with true. change (bsgn (V y)) with true. cbn [andb]. rewrite orb_true_r, !V_stored by assumption. rewrite Bs, V_vector.
    destruct (Z.eqb_spec y 0) as [E|E]; cbn [orb]; [split; [reflexivity|discriminate]|].
    assert (Q : negb (fitting (computing n) (Z.quot x y)) = (16 <? n) && negb (within (storage n) (Z.quot x y))).
    { destruct (Z.ltb_spec 16 n) as [L|L]; cbn [andb]; [rewrite (R4 L); reflexivity|]. destruct (R5 L) as [_ ->]. rewrite fit32; [reflexivity|].
      destruct (B16 L) as [Bx By]. pose proof (quot_bound x y E) as Q. apply Z.abs_le in Q. lia. }
    rewrite Q. destruct (_ && _); [split; [reflexivity|discriminate]|]. split; [reflexivity|]. intros z F. injection F as <-. apply rem_in; assumption.
  - rewrite V_bitwise by auto. split; [reflexivity|]. intros z F. injection F as <-. apply bits_in; auto.
  - rewrite V_bitwise by auto. split; [reflexivity|]. intros z F. injection F as <-. apply bits_in; auto.
  - rewrite V_bitwise by auto. split; [reflexivity|]. intros z F. injection F as <-. apply bits_in; auto.
  - unfold any_left, any_shift. rewrite !V_small. unfold shifted_left, shiftable, amount. rewrite V_bw, !V_stored by assumption. change (bsgn (V x)) with true.
    rewrite V_store, (around_id (storage n) y ltac:(lia) Y), Bs, V_vector. destruct (_ && _); [|split; [reflexivity|discriminate]].
    split; [cbn; rewrite <- V_norm; reflexivity|]. intros z F. injection F as <-. apply around_in. lia.
  - unfold any_right, any_shift. rewrite !V_small. unfold shifted_right. cbn zeta. rewrite V_bw, !V_stored by assumption. replace (n =? 1) with false by lia. rewrite Bs, V_vector.
    destruct (_ && _); [|split; [reflexivity|discriminate]]. split; [cbn; rewrite <- V_norm; reflexivity|]. intros z F. injection F as <-. apply around_in. lia.
  - unfold any_arith, any_shift. rewrite !V_small. unfold shifted_arith, shiftable, amount. rewrite V_bw, !V_stored by assumption. change (bsgn (V x)) with true.
    rewrite V_store, (around_id (storage n) y ltac:(lia) Y), Bs, V_vector. destruct (_ && _) eqn:Q; [|split; [reflexivity|discriminate]].
    split; [reflexivity|]. intros z F. injection F as <-. apply div_in; [exact X|]. lia.
Qed.
Lemma minus_signed x : ok x -> any_minus (V x) = omap V (settle n (- x)).
Proof.
  intros X. unfold any_minus. rewrite V_small. unfold negated. rewrite V_bw, V_stored by exact X. change (bsgn (V x)) with true. rewrite andb_true_r, V_written.
  pose proof (settle_computed (- x)) as E. destruct (Z.ltb_spec 16 n) as [L|L]; cbn [andb].
  - apply E. lia.
  - rewrite <- E.
    + pose proof st_range as (_ & _ & _ & _ & R). destruct (R L) as [_ ->]. rewrite fit32; [reflexivity|]. pose proof (ok16 x L X). lia.
    + intros _. apply fit32. pose proof (ok16 x L X). lia.
Qed.
Lemma ex_signed env st e : (forall k, env k = V (st k) /\ ok (st k)) -> signed_ex n e ->
  any_ex env e = omap V (signed_value n st e) /\ forall z, signed_value n st e = Ok z -> ok z.
Proof.
  intros D. induction e as [k|msb lsb s z|o e IHe|o e IHe f IHf]; cbn [any_ex signed_value signed_ex]; intros O.
  - split; [cbn; f_equal; apply D|]. intros z E. injection E as <-. apply D.
  - destruct O as (-> & -> & -> & Z0). split.
    + unfold any_new. cbn zeta. replace (width (n - 1) 0) with n by (unfold width; lia). replace (n <=? 64) with true by lia. cbn. f_equal. apply V_norm.
    + intros w E. injection E as <-. apply around_in. pose proof st_range. lia.
  - destruct O as [-> O]. destruct (IHe O) as [E K]. rewrite E. destruct (signed_value n st e) as [x| | | |]; cbn [omap bind]; try (split; [reflexivity|discriminate]).
    split; [apply minus_signed; apply K; reflexivity|apply settle_ok].
  - destruct O as (J & O1 & O2). destruct (IHe O1) as [E K]. destruct (IHf O2) as [F L]. rewrite E, F.
    destruct (signed_value n st e) as [x| | | |]; cbn [omap bind]; try (split; [reflexivity|discriminate]).
    destruct (signed_value n st f) as [y| | | |]; cbn [omap bind]; try (split; [reflexivity|discriminate]).
    apply bin_signed; auto.
Qed.
Lemma rel_signed r x y : ok x -> ok y -> any_rel r (V x) (V y) = Ok (holds r x y).
Proof.
  intros X Y. assert (E : any_equal (V x) (V y) = Ok (x =? y)).
  { unfold any_equal. rewrite !V_small. cbn [andb]. unfold equal_native. rewrite V_bw, !V_stored by assumption. change (bsgn (V x)) with true.
    rewrite V_store, around_id; [reflexivity|pose proof st_range; lia|exact Y]. }
  assert (O : forall cmp w, any_order cmp w (V x) (V y) = Ok (cmp x y)).
  { intros cmp w. unfold any_order. rewrite !V_small. unfold ordered. change (both_signed (V x) (V y)) with true. rewrite !V_stored by assumption. reflexivity. }
  destruct r; cbn [any_rel holds].
  - exact E.
  - rewrite E. reflexivity.
  - apply O.
  - apply O.
  - unfold any_greater. rewrite O. f_equal. apply Z.gtb_ltb.
  - unfold any_greater_equal. rewrite O. f_equal. apply Z.geb_leb.
Qed.
Lemma test_signed env st t : (forall k, env k = V (st k) /\ ok (st k)) -> signed_test n t -> any_test env t = over_test (signed_value n) st t.
Proof.
  intros D. destruct t as [r e f|e|e i|e]; cbn [any_test over_test signed_test]; intros O; try contradiction.
  - destruct O as [O1 O2]. destruct (ex_signed env st e D O1) as [E K]. destruct (ex_signed env st f D O2) as [F L]. rewrite E, F.
    destruct (signed_value n st e) as [x| | | |]; cbn [omap bind]; try reflexivity. destruct (signed_value n st f) as [y| | | |]; cbn [omap bind]; try reflexivity.
    apply rel_signed; auto.
  - destruct (ex_signed env st e D O) as [E K]. rewrite E. destruct (signed_value n st e) as [x| | | |]; cbn [omap bind]; try reflexivity.
    unfold any_true. rewrite V_small, V_stored by auto. reflexivity.
Qed.

Definition aligned (r : outcome state) (s : outcome (nat -> Z)) : Prop :=
  match r, s with
  | Ok env, Ok st => forall k, env k = V (st k) /\ ok (st k)
  | UB, UB | Fuel, Fuel | Exn, Exn | IllFormed, IllFormed => True
  | _, _ => False
  end.
Lemma put_aligned env st k z : (forall k, env k = V (st k) /\ ok (st k)) -> ok z -> aligned (Ok (upd env k (V z))) (Ok (put st k z)).
Proof. intros D O j. unfold upd, put. destruct (Nat.eqb j k); [split; [reflexivity|exact O]|apply D]. Qed.
Lemma step_signed d x : ok x -> any_step d (V x) = Ok (V (around (storage n) (x + d))).
Proof.
  intros X. unfold any_step. rewrite V_small. unfold stepped. cbn zeta. rewrite V_bw, V_stored by exact X. change (bsgn (V x)) with true. rewrite orb_true_r. cbn [orb negb].
  rewrite V_written, <- V_norm. reflexivity.
Qed.
Lemma assign_signed x y : ok y -> any_assign (V x) (V y) = Ok (V y).
Proof.
  intros Y. unfold any_assign. rewrite !V_small. cbn [andb orb]. rewrite V_stored by exact Y. unfold rewritten. reflexivity.
Qed.
Lemma run_signed fuel : forall env st c, (forall k, env k = V (st k) /\ ok (st k)) -> signed_stmt n c -> aligned (any_run fuel env c) (signed_run n fuel st c).
Proof.
  unfold signed_run. assert (In : forall z, ok (around (storage n) z)) by (intros; apply around_in; pose proof st_range; lia).
  induction fuel as [|fuel IH]; intros env st c D O; [exact I|].
  assert (Next : forall c d, signed_stmt n c -> signed_stmt n d ->
    aligned (let! env' := any_run fuel env c in any_run fuel env' d)
      (let! st' := over_run (signed_value n) (fun z => Ok (around (storage n) z)) fuel st c in over_run (signed_value n) (fun z => Ok (around (storage n) z)) fuel st' d)).
  { intros c' d' Oc Od. specialize (IH env st c' D Oc) as A. destruct (any_run fuel env c') as [env'| | | |], (over_run _ _ fuel st c') as [st'| | | |]; cbn [aligned] in A; try contradiction; cbn [bind]; try exact I.
    apply IH; assumption. }
  destruct c; cbn [any_run over_run signed_stmt] in *; try contradiction.
  - exact D.
  - destruct (ex_signed env st e D O) as [E K]. rewrite E. destruct (signed_value n st e) as [z| | | |]; cbn [omap bind]; try exact I.
    specialize (K z eq_refl). rewrite (proj1 (D k)), assign_signed by exact K. cbn [bind]. apply put_aligned; assumption.
  - rewrite (proj1 (D k)), step_signed by apply D. cbn [bind]. apply put_aligned; [exact D|apply In].
  - rewrite (proj1 (D k)), step_signed by apply D. cbn [bind]. rewrite <- Z.sub_opp_r at 1. apply put_aligned; [exact D|apply In].
  - apply Next; apply O.
  - destruct O as (O1 & O2 & O3). rewrite (test_signed env st t D O1). destruct (over_test (signed_value n) st t) as [[]| | | |]; cbn [bind]; try exact I; apply IH; assumption.
  - destruct O as (O1 & O2). rewrite (test_signed env st t D O1). destruct (over_test (signed_value n) st t) as [[]| | | |]; cbn [bind]; try exact I; [|exact D].
    apply Next; [exact O2|]. split; assumption.
Qed.
End Width.

Lemma signed_ex_wide n e : 2 <= n <= 64 -> signed_ex n e -> wide_ex_ok e.
Proof.
  intros Hn. induction e as [k|msb lsb s z|o e IHe|o e IHe f IHf]; cbn [signed_ex wide_ex_ok].
  - auto.
  - intros (-> & -> & -> & Z0). unfold int_ok, width. lia.
  - intros [-> O]. split; [exact I|auto].
  - intros (_ & O1 & O2). auto.
Qed.
Lemma signed_stmt_wide n c : 2 <= n <= 64 -> signed_stmt n c -> wide_stmt_ok c.
Proof.
  intros Hn. assert (T : forall t, signed_test n t -> wide_test_ok t).
  { intros t. destruct t; cbn; try contradiction; [intros []; split|]; eauto using signed_ex_wide. }
  induction c; cbn [signed_stmt wide_stmt_ok]; intros O; try contradiction; try exact I.
  - eapply signed_ex_wide; eassumption.
  - destruct O. auto.
  - destruct O as (O1 & O2 & O3). auto.
  - destruct O. auto.
Qed.
Theorem signed_programs n fuel env st c : 2 <= n <= 64 -> holding n env st -> signed_stmt n c -> same_run n (lib_run fuel env c) (signed_run n fuel st c).
Proof.
  intros Hn D O. rewrite programs_any; [|intros k; apply D|apply (signed_stmt_wide n); assumption].
  assert (D' : forall k, env k = vec_of n true (st k) /\ within (storage n) (st k) = true).
  { intros k. destruct (D k) as [T E]. rewrite <- E. apply (V_state n Hn). exact T. }
  pose proof (run_signed n Hn fuel env st c D' O) as A. destruct (any_run fuel env c) as [e'| | | |], (signed_run n fuel st c) as [s'| | | |]; cbn in *; try contradiction; try exact I.
  intros k. destruct (A k) as [E F]. rewrite E. split; [apply (V_typed n Hn)|]. apply (V_stored n Hn). exact F.
Qed.

(** * the integers *)
Section Integers.
Variable n : Z.
Hypothesis Hn : 2 <= n <= 64.
Lemma within_mono z : within n z = true -> within (storage n) z = true.
Proof.
  rewrite !within_iff. pose proof (st_range n Hn). assert (2 ^ (n - 1) <= 2 ^ (storage n - 1)) by (apply Z.pow_le_mono_r; lia). lia.
Qed.
Lemma checked_ok z r : checked n z = Ok r -> r = z /\ within n z = true.
Proof. unfold checked. destruct (within n z); [|discriminate]. intros E. injection E as <-. auto. Qed.
Lemma settle_within z : within n z = true -> settle n z = Ok z.
Proof. intros W. unfold settle. rewrite (within_mono z W). reflexivity. Qed.
Lemma around_within z : within n z = true -> around (storage n) z = z.
Proof. intros W. apply around_id; [pose proof (st_range n Hn); lia|apply within_mono; exact W]. Qed.
Lemma cut_shift x y : 0 <= y < n -> (x / 2 ^ y) mod 2 ^ (n - y) = (x mod 2 ^ n) / 2 ^ y.
Proof.
  intros Y. rewrite <- !Z.shiftr_div_pow2, <- !Z.land_ones by lia. apply Z.bits_inj'. intros i I0. rewrite Z.land_spec, !Z.shiftr_spec, Z.land_spec by lia. f_equal.
  destruct (Z.lt_ge_cases i (n - y)); [rewrite !Z.ones_spec_low by lia; reflexivity|rewrite !Z.ones_spec_high by lia; reflexivity].
Qed.
Lemma bin_integer o x y z : within n x = true -> within n y = true -> integer_bin n o x y = Ok z -> signed_bin n o x y = Ok z /\ within n z = true.
Proof.
  intros X Y. pose proof (st_range n Hn) as (R1 & R2 & R3 & _). pose proof X as X'. pose proof Y as Y'. apply within_iff in X', Y'.
  destruct o; cbn [integer_bin signed_bin].
  - intros E. apply checked_ok in E. destruct E as [-> W]. split; [apply settle_within; exact W|exact W].
  - intros E. apply checked_ok in E. destruct E as [-> W]. split; [apply settle_within; exact W|exact W].
  - intros E. apply checked_ok in E. destruct E as [-> W]. split; [apply settle_within; exact W|exact W].
  - destruct (y =? 0); [discriminate|]. intros E. apply checked_ok in E. destruct E as [-> W]. split; [apply settle_within; exact W|exact W].
  - destruct (Z.eqb_spec y 0) as [E0|E0]; [discriminate|]. cbn [orb]. destruct (checked n (Z.quot x y)) as [q| | | |] eqn:Q; try discriminate. cbn [bind]. intros E. injection E as <-.
    apply checked_ok in Q. destruct Q as [_ W]. rewrite (within_mono _ W). cbn [negb]. rewrite andb_false_r. split; [reflexivity|].
    apply within_iff. pose proof (Z.rem_abs x y E0) as E. rewrite Z.rem_mod_nonneg in E by lia. pose proof (Z.mod_le (Z.abs x) (Z.abs y) ltac:(lia) ltac:(lia)).
    destruct (Z.le_gt_cases 0 x) as [P|P]; [pose proof (Z.rem_nonneg x y E0 P)|pose proof (Z.rem_nonpos x y E0 ltac:(lia))]; lia.
  - intros E. injection E as <-. split; [reflexivity|]. apply within_iff. apply BitOps.land_range_s; [lia|exact X'|exact Y'].
  - intros E. injection E as <-. split; [reflexivity|]. apply within_iff. apply BitOps.lor_range_s; [lia|exact X'|exact Y'].
  - intros E. injection E as <-. split; [reflexivity|]. apply within_iff. apply BitOps.lxor_range_s; [lia|exact X'|exact Y'].
  - destruct (_ && _) eqn:Q; [|discriminate]. intros E. apply checked_ok in E. destruct E as [-> W]. replace ((0 <=? y) && (y <? computing n)) with true by lia.
    rewrite around_within by exact W. split; [reflexivity|exact W].
  - destruct (_ && _) eqn:Q; [|discriminate]. intros E. apply checked_ok in E. destruct E as [-> W].
    rewrite cut_shift by lia. rewrite around_within by exact W. split; [reflexivity|exact W].
  - destruct (_ && _) eqn:Q; [|discriminate]. intros E. injection E as <-. replace ((0 <=? y) && (y <? computing n)) with true by lia. split; [reflexivity|].
    apply within_iff. pose proof (Z.pow_pos_nonneg 2 y ltac:(lia) ltac:(lia)). split; [apply Z.div_le_lower_bound; nia|apply Z.div_lt_upper_bound; nia].
  - discriminate.
Qed.
Lemma value_integer st e z : (forall k, within n (st k) = true) -> integer_value n st e = Ok z -> signed_value n st e = Ok z /\ within n z = true.
Proof.
  intros D. revert z. induction e as [k|msb lsb s z0|o e IHe|o e IHe f IHf]; cbn [integer_value signed_value]; intros z E.
  - injection E as <-. split; [reflexivity|apply D].
  - apply checked_ok in E. destruct E as [-> W]. rewrite around_within by exact W. auto.
  - destruct (integer_value n st e) as [x| | | |]; try discriminate. cbn [bind] in E. destruct (IHe x eq_refl) as [-> _]. cbn [bind].
    apply checked_ok in E. destruct E as [-> W]. split; [apply settle_within; exact W|exact W].
  - destruct (integer_value n st e) as [x| | | |]; try discriminate. cbn [bind] in E. destruct (IHe x eq_refl) as [-> X]. cbn [bind].
    destruct (integer_value n st f) as [y| | | |]; try discriminate. cbn [bind] in E. destruct (IHf y eq_refl) as [-> Y]. cbn [bind]. apply bin_integer; assumption.
Qed.
Lemma test_integer st t b : (forall k, within n (st k) = true) -> over_test (integer_value n) st t = Ok b -> over_test (signed_value n) st t = Ok b.
Proof.
  intros D E. destruct t as [r e f|e|e i|e]; cbn [over_test] in *; try discriminate.
  - destruct (integer_value n st e) as [x| | | |] eqn:Ee; try discriminate. cbn [bind] in E. destruct (value_integer st e x D Ee) as [-> _]. cbn [bind].
    destruct (integer_value n st f) as [y| | | |] eqn:Ef; try discriminate. cbn [bind] in E. destruct (value_integer st f y D Ef) as [-> _]. exact E.
  - destruct (integer_value n st e) as [x| | | |] eqn:Ee; try discriminate. cbn [bind] in E. destruct (value_integer st e x D Ee) as [-> _]. exact E.
Qed.
Lemma put_within st k z : (forall k, within n (st k) = true) -> within n z = true -> forall j, within n (put st k z j) = true.
Proof. intros D W j. unfold put. destruct (Nat.eqb j k); [exact W|apply D]. Qed.
Lemma run_integer fuel : forall st c st', (forall k, within n (st k) = true) -> integer_run n fuel st c = Ok st' ->
  signed_run n fuel st c = Ok st' /\ forall k, within n (st' k) = true.
Proof.
  unfold integer_run, signed_run. induction fuel as [|fuel IH]; intros st c st' D E; [discriminate|].
  assert (Next : forall c d, (let! s := over_run (integer_value n) (checked n) fuel st c in over_run (integer_value n) (checked n) fuel s d) = Ok st' ->
    (let! s := over_run (signed_value n) (fun z => Ok (around (storage n) z)) fuel st c in over_run (signed_value n) (fun z => Ok (around (storage n) z)) fuel s d) = Ok st' /\ forall k, within n (st' k) = true).
  { intros c' d' F. destruct (over_run (integer_value n) (checked n) fuel st c') as [s| | | |] eqn:G; try discriminate. cbn [bind] in F.
    destruct (IH st c' s D G) as [-> D']. cbn [bind]. apply IH; assumption. }
  destruct c; cbn [over_run] in *; try discriminate.
  - injection E as <-. split; [reflexivity|exact D].
  - destruct (integer_value n st e) as [x| | | |] eqn:Ee; try discriminate. cbn [bind] in E. injection E as <-. destruct (value_integer st e x D Ee) as [-> W]. split; [reflexivity|apply put_within; assumption].
  - destruct (checked n (st k + 1)) as [x| | | |] eqn:Q; try discriminate. cbn [bind] in E. injection E as <-. apply checked_ok in Q. destruct Q as [-> W].
    rewrite around_within by exact W. split; [reflexivity|apply put_within; assumption].
  - destruct (checked n (st k - 1)) as [x| | | |] eqn:Q; try discriminate. cbn [bind] in E. injection E as <-. apply checked_ok in Q. destruct Q as [-> W].
    rewrite around_within by exact W. split; [reflexivity|apply put_within; assumption].
  - apply Next. exact E.
  - destruct (over_test (integer_value n) st t) as [b| | | |] eqn:Q; try discriminate. cbn [bind] in E. rewrite (test_integer st t b D Q). cbn [bind]. apply IH; assumption.
  - destruct (over_test (integer_value n) st t) as [[]| | | |] eqn:Q; try discriminate; cbn [bind] in E; rewrite (test_integer st t _ D Q); cbn [bind]; [apply Next; exact E|].
    injection E as <-. split; [reflexivity|exact D].
Qed.
Lemma typed_n b : typed b n true -> bw b = n.
Proof. intros (_ & (M & L) & _). unfold bw, width. rewrite M, L. lia. Qed.
Lemma tidy_within b : typed b n true -> (tidy b <-> within n (stored b) = true).
Proof.
  intros T. destruct (V_state n Hn b T) as [E _]. rewrite within_iff. rewrite vec_of_small in E by lia. rewrite E. unfold tidy, vector, stored. cbn [bval bsgn].
  unfold bw. cbn [bmsb blsb]. replace (width (n - 1) 0) with n by (unfold width; lia). replace (1 <? n) with true by lia. reflexivity.
Qed.
End Integers.
Theorem signed_integers n fuel env st c st' : 2 <= n <= 64 -> showing n env st -> (forall k, tidy (env k)) -> signed_stmt n c -> integer_run n fuel st c = Ok st' ->
  exists env', lib_run fuel env c = Ok env' /\ showing n env' st' /\ forall k, tidy (env' k).
Proof.
  intros Hn D T O E. assert (B : forall b, typed b n true -> 2 <= bw b <= 64) by (intros b Tb; rewrite (typed_n n Hn b Tb); exact Hn).
  assert (D1 : holding n env st). { intros k. destruct (D k) as [Tk <-]. split; [exact Tk|]. apply Iff5.tidy_stored; [apply Tk|apply T|apply B; exact Tk]. }
  assert (D2 : forall k, within n (st k) = true). { intros k. destruct (D1 k) as [Tk <-]. apply (tidy_within n Hn); [exact Tk|apply T]. }
  destruct (run_integer n Hn fuel st c st' D2 E) as [F W]. pose proof (signed_programs n fuel env st c Hn D1 O) as A. rewrite F in A.
  destruct (lib_run fuel env c) as [env'| | | |]; cbn in A; try contradiction. exists env'. split; [reflexivity|].
  assert (T' : forall k, tidy (env' k)). { intros k. destruct (A k) as [Tk Ek]. apply (tidy_within n Hn); [exact Tk|]. rewrite Ek. apply W. }
  split; [|exact T']. intros k. destruct (A k) as [Tk Ek]. split; [exact Tk|]. rewrite <- Ek. symmetry. apply Iff5.tidy_stored; [apply Tk|apply T'|apply B; exact Tk].
Qed.
