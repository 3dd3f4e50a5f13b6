(** Programs over signed vectors of more than 64 positions run in lockstep with the programs over integers of SpecSignedWide.v. *)
From Coq Require Import ZArith List Bool Lia.
From Verif Require Import Cpp ZBits BigNum Bit Spec SpecExact SpecMachine SpecWide MachineProg WideProg BitMain WideProofs WideProofs2 WideProofs5 SpecSigned SignedProofs SpecSignedWide.
From Verif Require FourProofs2 BitOps BitProofs Iff3 Iff8 Iff25.
Import ListNotations.
Open Scope Z_scope.
Local Ltac Zify.zify_post_hook ::= idtac.

Section Width.
Variable n : Z.
Hypothesis Hn : 65 <= n < 2 ^ 31.
Let T b := typed b n true.

Lemma half : 0 < 2 ^ (n - 1) /\ 2 ^ n = 2 * 2 ^ (n - 1).
Proof. split; [apply Z.pow_pos_nonneg; lia|apply pow_half; lia]. Qed.
Lemma around_cong a b : a mod 2 ^ n = b mod 2 ^ n -> around n a = around n b.
Proof. intros E. unfold around. f_equal. pose proof half. rewrite (Z.add_mod a), (Z.add_mod b), E by lia. reflexivity. Qed.
Lemma around_mod z : around n z mod 2 ^ n = z mod 2 ^ n.
Proof. unfold around. pose proof half. rewrite Zminus_mod_idemp_l. f_equal. lia. Qed.
Lemma twos_around z : twos n (z mod 2 ^ n) = around n z.
Proof.
  pose proof half as [P Q]. pose proof (Z.mod_pos_bound z (2 ^ n) ltac:(lia)) as R. rewrite (around_cong z (z mod 2 ^ n)) by (rewrite Z.mod_mod by lia; reflexivity). set (w := z mod 2 ^ n) in *.
  unfold twos. assert (E : Z.testbit w (n - 1) = negb (w <? 2 ^ (n - 1))).
  { rewrite Z.testbit_eqb by lia. destruct (Z.ltb_spec w (2 ^ (n - 1))) as [L|L]; cbn [negb]. - rewrite Z.div_small by lia. reflexivity. - replace (w / 2 ^ (n - 1)) with 1; [reflexivity|]. apply (Z.div_unique _ _ 1 (w - 2 ^ (n - 1))); lia. }
  destruct (Z.testbit w (n - 1)) eqn:B; destruct (Z.ltb_spec w (2 ^ (n - 1))); try discriminate; unfold around.
  - replace (w + 2 ^ (n - 1)) with (w - 2 ^ (n - 1) + 1 * 2 ^ n) by lia. rewrite Z.mod_add by lia. rewrite Z.mod_small by lia. lia.
  - rewrite Z.mod_small by lia. lia.
Qed.
Lemma T_bw b : T b -> bw b = n. Proof. intros (_ & (M & L) & _). unfold bw, width. rewrite M, L. lia. Qed.
Lemma T_small b : T b -> small b = false. Proof. intros H. unfold small. rewrite (T_bw b H). lia. Qed.
Lemma T_sgn b : T b -> bsgn b = true. Proof. intros H. apply H. Qed.
Lemma T_value b : T b -> value b = around n (stored b).
Proof. intros H. unfold value, snum, num. rewrite (T_sgn b H), (T_bw b H). apply twos_around. Qed.
Lemma T_mod b : T b -> value b mod 2 ^ n = stored b mod 2 ^ n.
Proof. intros H. rewrite (T_value b H). apply around_mod. Qed.
Lemma T_range b : T b -> - 2 ^ (n - 1) <= value b < 2 ^ (n - 1).
Proof. intros H. rewrite (T_value b H). apply within_iff, around_in. lia. Qed.
Lemma T_of z : T (vec_of n true z). Proof. apply Iff25.vec_of_typed. lia. Qed.
Lemma of_value z : value (vec_of n true z) = around n z.
Proof. unfold value, snum. change (bsgn (vec_of n true z)) with true. cbn match. rewrite vec_of_bw by lia. rewrite Iff3.vec_of_num by lia. apply twos_around. Qed.
Lemma T_pairs a b : T a -> T b -> pairs_up a b = true.
Proof. intros A B. unfold pairs_up. rewrite (T_bw a A), (T_bw b B), Z.eqb_refl. destruct B as (_ & (-> & ->) & _). lia. Qed.
Lemma T_wider a b : T a -> T b -> wider a b = n. Proof. intros A B. unfold wider. rewrite (T_bw a A), (T_bw b B). lia. Qed.
Lemma T_widened a : T a -> widened a n = stored a. Proof. intros A. unfold widened. rewrite (T_bw a A), Z.eqb_refl. reflexivity. Qed.
Lemma T_both a b : T a -> T b -> both_signed a b = true. Proof. intros A B. unfold both_signed. rewrite (T_sgn a A), (T_sgn b B). reflexivity. Qed.
Lemma T_combined f a b : T a -> T b -> combined (fun x y => Ok (f x y)) a b = Ok (vec_of n true (f (stored a) (stored b))).
Proof. intros A B. unfold combined. cbn zeta. rewrite (T_pairs a b A B), (T_wider a b A B), (T_widened a A), (T_widened b B), (T_both a b A B). reflexivity. Qed.
Lemma bits_mod (f : Z -> Z -> Z) (g : bool -> bool -> bool) : (forall a b i, 0 <= i -> Z.testbit (f a b) i = g (Z.testbit a i) (Z.testbit b i)) -> forall a b a' b', a mod 2 ^ n = a' mod 2 ^ n -> b mod 2 ^ n = b' mod 2 ^ n -> f a b mod 2 ^ n = f a' b' mod 2 ^ n.
Proof.
  intros F a b a' b' EA EB. apply Z.bits_inj'. intros i I0. rewrite !testbit_mod_pow2 by lia. destruct (Z.ltb_spec i n); [|reflexivity]. rewrite !F by exact I0.
  assert (K : forall u v, u mod 2 ^ n = v mod 2 ^ n -> Z.testbit u i = Z.testbit v i). { intros u v E. assert (X : Z.testbit (u mod 2 ^ n) i = Z.testbit (v mod 2 ^ n) i) by congruence. rewrite !testbit_mod_pow2 in X by lia. replace (i <? n) with true in X by lia. exact X. }
  rewrite (K a a' EA), (K b b' EB). reflexivity.
Qed.
Lemma whole_cap : whole_words n -> capacity n = n.
Proof. unfold whole_words, capacity, words_in. intros H. pose proof (Z.div_mod n 64 ltac:(lia)). replace (n + 63) with (n / 64 * 64 + 63) by lia. rewrite Z.div_add_l by lia. change (63 / 64) with 0. lia. Qed.
Lemma T_stored_range b : T b -> 0 <= stored b < 2 ^ capacity n.
Proof.
  intros H. pose proof (FourProofs2.stored_object_vec b (proj1 H)) as E. unfold rewritten in E. destruct H as (_ & (M & L) & S). rewrite M, L, S in E. fold (vec_of n true (stored b)) in E.
  rewrite <- E. rewrite stored_vec_of by lia. apply Z.mod_pos_bound. apply Z.pow_pos_nonneg; [lia|]. unfold capacity, words_in. pose proof (Z.div_pos (n + 63) 64). lia.
Qed.
Lemma T_whole b : whole_words n -> T b -> stored b = value b mod 2 ^ n.
Proof. intros W H. rewrite (T_mod b H). pose proof (T_stored_range b H) as R. rewrite (whole_cap W) in R. symmetry. apply Z.mod_small. exact R. Qed.
Lemma neg_mod x : - 2 ^ (n - 1) <= x < 0 -> x mod 2 ^ n = x + 2 ^ n.
Proof. intros H. pose proof half. rewrite <- (Z.mod_add x 1) by lia. rewrite Z.mul_1_l. apply Z.mod_small. lia. Qed.
Lemma pos_mod x : 0 <= x < 2 ^ (n - 1) -> x mod 2 ^ n = x. Proof. intros H. pose proof half. apply Z.mod_small. lia. Qed.
Lemma far x : 2 ^ (n - 1) <= x -> n <= x.
Proof. intros H. pose proof (Z.pow_gt_lin_r 2 (n - 1) ltac:(lia) ltac:(lia)). lia. Qed.

Lemma wbin o a b : T a -> T b -> match o with Plus | Less | And | Or | Xor => True | Shl | Shr => whole_words n | _ => False end ->
  exists r, any_bin o a b = Ok r /\ T r /\ value r = wsigned_bin n o (value a) (value b).
Proof.
  intros A B O. pose proof half as [P Q]. pose proof (T_range a A) as RA. pose proof (T_range b B) as RB.
  destruct o; try contradiction; cbn [any_bin wsigned_bin].
  - unfold any_sum. rewrite (T_small a A). cbn [andb]. rewrite (T_combined (fun x y => x + y)) by assumption. eexists. split; [reflexivity|]. split; [apply T_of|]. rewrite of_value. apply around_cong.
    rewrite (Z.add_mod (stored a)), (Z.add_mod (value a)), (T_mod a A), (T_mod b B) by lia. reflexivity.
  - unfold any_difference. rewrite (T_small a A). cbn [andb]. rewrite (T_combined (fun x y => x - y)) by assumption. eexists. split; [reflexivity|]. split; [apply T_of|]. rewrite of_value. apply around_cong.
    rewrite (Zminus_mod (stored a)), (Zminus_mod (value a)), (T_mod a A), (T_mod b B). reflexivity.
  - unfold any_bitwise. rewrite (T_small a A). cbn [andb orb]. rewrite (T_wider a b A B). rewrite (T_combined (fun x y => Z.land x y mod 2 ^ n)) by assumption. eexists. split; [reflexivity|]. split; [apply T_of|]. rewrite of_value.
    rewrite <- (around_id n (Z.land (value a) (value b))) by (try lia; apply within_iff; apply BitOps.land_range_s; (lia || assumption)). apply around_cong. rewrite Z.mod_mod by lia.
    apply (bits_mod Z.land andb); [intros; apply Z.land_spec| |]; symmetry; apply T_mod; assumption.
  - unfold any_bitwise. rewrite (T_small a A), (T_bw a A), (T_bw b B), Z.eqb_refl. cbn [andb orb negb]. rewrite (T_combined Z.lor) by assumption. eexists. split; [reflexivity|]. split; [apply T_of|]. rewrite of_value.
    rewrite <- (around_id n (Z.lor (value a) (value b))) by (try lia; apply within_iff; apply BitOps.lor_range_s; (lia || assumption)). apply around_cong.
    apply (bits_mod Z.lor orb); [intros; apply Z.lor_spec| |]; symmetry; apply T_mod; assumption.
  - unfold any_bitwise. rewrite (T_small a A), (T_bw a A), (T_bw b B), Z.eqb_refl. cbn [andb orb negb]. rewrite (T_combined Z.lxor) by assumption. eexists. split; [reflexivity|]. split; [apply T_of|]. rewrite of_value.
    rewrite <- (around_id n (Z.lxor (value a) (value b))) by (try lia; apply within_iff; apply BitOps.lxor_range_s; (lia || assumption)). apply around_cong.
    apply (bits_mod Z.lxor xorb); [intros; apply Z.lxor_spec| |]; symmetry; apply T_mod; assumption.
  - unfold any_left, any_shift, any_amount. rewrite (T_small a A), (T_small b B), (T_bw a A), (T_both a b A B). eexists. split; [reflexivity|]. split; [apply T_of|]. rewrite of_value.
    rewrite (T_whole b O B). destruct (Z.ltb_spec (value b) 0) as [N|N].
    + rewrite (neg_mod (value b)) by lia. pose proof (far (value b + 2 ^ n) ltac:(lia)) as F. replace (value b + 2 ^ n) with (value b + 2 ^ n - n + n) by lia. rewrite Z.pow_add_r by lia. rewrite Z.mul_assoc, Z.mod_mul by lia. apply around_id; [lia|]. apply within_iff. lia.
    + rewrite (pos_mod (value b)) by lia. apply around_cong. rewrite Z.mod_mod by lia. rewrite (Z.mul_mod (stored a)), (Z.mul_mod (value a)), (T_mod a A) by lia. reflexivity.
  - unfold any_right, any_shift, any_amount. rewrite (T_small a A), (T_small b B), (T_bw a A), (T_both a b A B). eexists. split; [reflexivity|]. split; [apply T_of|]. rewrite of_value.
    rewrite (T_whole b O B). unfold num. rewrite (T_bw a A), <- (T_mod a A). destruct (Z.ltb_spec (value b) 0) as [N|N].
    + rewrite (neg_mod (value b)) by lia. pose proof (far (value b + 2 ^ n) ltac:(lia)) as F. pose proof (Z.mod_pos_bound (value a) (2 ^ n) ltac:(lia)) as M. assert (2 ^ n <= 2 ^ (value b + 2 ^ n)) by (apply Z.pow_le_mono_r; lia).
      rewrite Z.div_small by lia. apply around_id; [lia|]. apply within_iff. lia.
    + rewrite (pos_mod (value b)) by lia. reflexivity.
Qed.
Lemma wconst z : - 2 ^ 63 <= z < 2 ^ 64 -> T (any_new (n - 1) 0 true z) /\ value (any_new (n - 1) 0 true z) = z.
Proof.
  intros R. pose proof half as [P Q]. assert (2 ^ 64 <= 2 ^ (n - 1)) by (apply Z.pow_le_mono_r; lia). unfold any_new. cbn zeta. replace (width (n - 1) 0) with n by (unfold width; lia). replace (n <=? 64) with false by lia.
  fold (vec_of n true (if true && (z <? 0) then z mod 2 ^ n else z mod 2 ^ 64)). split; [apply T_of|]. rewrite of_value. cbn [andb]. transitivity (around n z); [|apply around_id; [lia|]; apply within_iff; lia].
  destruct (Z.ltb_spec z 0); [apply around_cong; apply Z.mod_mod; lia|]. rewrite Z.mod_small by lia. reflexivity.
Qed.
Lemma wex env st e : showing n env st -> wsigned_ex n e -> exists r, any_ex env e = Ok r /\ T r /\ value r = wsigned_value n st e.
Proof.
  intros D. pose proof half as [P Q]. revert e.
  fix IH 1. intros e. destruct e as [k|msb lsb s z|o e|o e f]; cbn [wsigned_ex any_ex wsigned_value]; intros O.
  - exists (env k). split; [reflexivity|]. apply D.
  - destruct O as (-> & -> & -> & R). eexists. split; [reflexivity|]. apply wconst. exact R.
  - destruct o; try contradiction. destruct e as [| |o e|]; try contradiction. destruct O as [O O2]. destruct (IH e O2) as (a & E & A & Va). cbn [any_ex]. rewrite E. cbn [bind any_un]. pose proof (T_range a A) as RA. rewrite Va in RA.
    destruct O as [-> | ->]; cbn [any_un].
    + cbn [bind any_un]. eexists. split; [reflexivity|]. unfold any_inverse. rewrite (T_small a A), (T_bw a A). rewrite vec_of_bw by lia. split; [apply T_of|]. rewrite of_value. rewrite stored_vec_of by lia.
      rewrite <- Va in RA |- *. transitivity (around n (- value a - 1)); [|apply around_id; [lia|]; apply within_iff; lia]. apply around_cong.
      assert (CC : n <= capacity n) by (apply Iff8.capacity_ge; lia). rewrite mod_mod_pow2 by lia.
      rewrite (Zminus_mod (- stored a)), (Zminus_mod (- value a)). f_equal. f_equal. rewrite <- (Z.sub_0_l (stored a)), <- (Z.sub_0_l (value a)). rewrite (Zminus_mod 0 (stored a)), (Zminus_mod 0 (value a)), (T_mod a A). reflexivity.
    + unfold any_two_complement. rewrite (T_small a A), (T_bw a A). cbn [bind any_un]. eexists. split; [reflexivity|]. rewrite vec_of_bw by lia. split; [apply T_of|]. rewrite of_value. rewrite stored_vec_of by lia.
      apply around_cong. rewrite <- Va. assert (CC : n <= capacity n) by (apply Iff8.capacity_ge; lia). rewrite mod_mod_pow2 by lia.
      rewrite <- (Z.sub_0_l (stored a)), <- (Z.sub_0_l (value a)). rewrite (Zminus_mod 0 (stored a)), (Zminus_mod 0 (value a)), (T_mod a A). reflexivity.
  - destruct O as (Oo & Oe & Of). destruct (IH e Oe) as (a & E & A & Va). destruct (IH f Of) as (b & F & B & Vb). rewrite E, F. cbn [bind]. rewrite <- Va, <- Vb. apply wbin; assumption.
Qed.
Lemma wgreater a b : whole_words n -> T a -> T b -> any_greater a b = wide_above n (value a) (value b).
Proof.
  intros W A B. pose proof half as [P Q]. pose proof (T_range a A) as RA. pose proof (T_range b B) as RB. unfold any_greater, any_order. rewrite (T_small a A), (T_small b B). unfold wide_greater, wide_above. rewrite (T_both a b A B).
  assert (SA : snum a = value a) by (unfold value; rewrite (T_sgn a A); reflexivity). assert (SB : snum b = value b) by (unfold value; rewrite (T_sgn b B); reflexivity). rewrite SA, SB.
  assert (Sm : forall c, T c -> smallest c = (value c =? - 2 ^ (n - 1))).
  { intros c C. pose proof (T_range c C). unfold smallest, num. rewrite (T_bw c C), <- (T_mod c C). assert (X : value c mod 2 ^ n = if value c <? 0 then value c + 2 ^ n else value c) by (destruct (Z.ltb_spec (value c) 0); [apply neg_mod|apply pos_mod]; lia). rewrite X.
    destruct (Z.ltb_spec (value c) 0); [destruct (Z.eqb_spec (value c + 2 ^ n) (2 ^ (n - 1)))|destruct (Z.eqb_spec (value c) (2 ^ (n - 1)))]; destruct (Z.eqb_spec (value c) (- 2 ^ (n - 1))); lia || reflexivity. }
  rewrite (Sm a A), (Sm b B), (T_bw a A), (T_bw b B), (whole_cap W), (T_whole a W A), (T_whole b W B).
  destruct (Z.ltb_spec (value a) 0) as [NA|NA], (Z.ltb_spec (value b) 0) as [NB|NB]; cbn [andb].
  - destruct (Z.eqb_spec (value a) (- 2 ^ (n - 1))) as [EA|EA]; [reflexivity|]. destruct (Z.eqb_spec (value b) (- 2 ^ (n - 1))) as [EB|EB]; [reflexivity|].
    f_equal. assert (K : forall x, - 2 ^ (n - 1) < x < 0 -> (- (x mod 2 ^ n)) mod 2 ^ n = - x). { intros x X. rewrite (neg_mod x) by lia. replace (- (x + 2 ^ n)) with (- x + -1 * 2 ^ n) by lia. rewrite Z.mod_add by lia. apply Z.mod_small. lia. }
    rewrite !K by lia. destruct (Z.ltb_spec (- value a) (- value b)), (Z.ltb_spec (value b) (value a)); lia || reflexivity.
  - f_equal. symmetry. apply Z.ltb_ge. lia.
  - f_equal. symmetry. apply Z.ltb_lt. lia.
  - rewrite !pos_mod by lia. reflexivity.
Qed.
Lemma wtest env st t : showing n env st -> wsigned_test n t -> any_test env t = wsigned_holds n st t.
Proof.
  intros D O. destruct t as [r e f|e|e i|e]; cbn [wsigned_test] in O; try contradiction. destruct O as (R & W & Oe & Of). cbn [any_test wsigned_holds].
  destruct (wex env st e D Oe) as (a & -> & A & Va). destruct (wex env st f D Of) as (b & -> & B & Vb). cbn [bind]. destruct R as [-> | ->]; cbn [any_rel]; rewrite <- Va, <- Vb.
  - rewrite <- (wgreater b a W B A). unfold any_less, any_greater, any_order. rewrite (T_small a A), (T_small b B). reflexivity.
  - apply wgreater; assumption.
Qed.
Lemma wput env st k b z : showing n env st -> T b -> value b = z -> showing n (upd env k b) (put st k z).
Proof. intros D B V j. unfold upd, put. destruct (Nat.eqb j k); [split; assumption|apply D]. Qed.
Lemma rewritten_T a z : T a -> rewritten a z = vec_of n true z.
Proof. intros (_ & (M & L) & S). unfold rewritten. rewrite M, L, S. reflexivity. Qed.
Lemma wassign a b : T a -> T b -> any_assign a b = Ok b.
Proof.
  intros A B. unfold any_assign. rewrite (T_small a A), (T_bw a A), (T_bw b B), Z.eqb_refl. cbn [andb orb negb]. rewrite (rewritten_T a _ A). rewrite <- (rewritten_T b _ B). rewrite (FourProofs2.stored_object_vec b (proj1 B)). reflexivity.
Qed.
Lemma wstep d a : T a -> exists r, any_step d a = Ok r /\ T r /\ value r = around n (value a + d).
Proof.
  intros A. unfold any_step. rewrite (T_small a A), (T_sgn a A). cbn [orb]. rewrite (rewritten_T a _ A). eexists. split; [reflexivity|]. split; [apply T_of|]. rewrite of_value. apply around_cong.
  pose proof half. rewrite (Z.add_mod (stored a)), (Z.add_mod (value a)), (T_mod a A) by lia. reflexivity.
Qed.
Lemma wrun fuel : forall env st c, showing n env st -> wsigned_stmt n c -> same_shown n (any_run fuel env c) (wsigned_run n fuel st c).
Proof.
  induction fuel as [|fuel IH]; intros env st c D O; [exact I|].
  assert (Next : forall c d, wsigned_stmt n c -> wsigned_stmt n d ->
    same_shown n (let! env' := any_run fuel env c in any_run fuel env' d) (let! st' := wsigned_run n fuel st c in wsigned_run n fuel st' d)).
  { intros c' d' Oc Od. specialize (IH env st c' D Oc) as A. destruct (any_run fuel env c') as [env'| | | |], (wsigned_run n fuel st c') as [st'| | | |]; cbn [same_shown] in A; try contradiction; cbn [bind]; try exact I.
    apply IH; assumption. }
  destruct c; cbn [any_run wsigned_run wsigned_stmt] in *; try contradiction.
  - exact D.
  - destruct (wex env st e D O) as (r & -> & R & V). cbn [bind]. rewrite (wassign (env k) r) by (apply D || exact R). cbn [bind same_shown]. apply wput; assumption.
  - destruct (wstep 1 (env k) (proj1 (D k))) as (r & -> & R & V). cbn [bind same_shown]. rewrite (proj2 (D k)) in V. apply wput; assumption.
  - destruct (wstep (-1) (env k) (proj1 (D k))) as (r & -> & R & V). cbn [bind same_shown]. rewrite (proj2 (D k)) in V. apply wput; assumption.
  - apply Next; apply O.
  - destruct O as (O1 & O2 & O3). rewrite (wtest env st t D O1). destruct (wsigned_holds n st t) as [[]| | | |]; cbn [bind]; try exact I; apply IH; assumption.
  - destruct O as (O1 & O2). rewrite (wtest env st t D O1). destruct (wsigned_holds n st t) as [[]| | | |]; cbn [bind]; try exact I; [|exact D]. apply Next; [exact O2|]. split; assumption.
Qed.
Lemma wsigned_wide_ex : forall e, wsigned_ex n e -> wide_ex_ok e.
Proof.
  fix IH 1. intros e. destruct e as [k|msb lsb s z|o e|o e f]; cbn [wsigned_ex wide_ex_ok]; intros O.
  - exact I.
  - destruct O as (-> & -> & -> & R). unfold int_ok, width. lia.
  - destruct o; try contradiction. destruct e as [| |o e|]; try contradiction. destruct O as [O O2]. split; [exact I|]. cbn [wide_ex_ok]. split; [destruct O as [-> | ->]; exact I|]. apply IH. exact O2.
  - destruct O as (_ & Oe & Of). split; apply IH; assumption.
Qed.
Lemma wsigned_wide_stmt c : wsigned_stmt n c -> wide_stmt_ok c.
Proof.
  assert (Te : forall t, wsigned_test n t -> wide_test_ok t). { intros t. destruct t; cbn; try contradiction. intros (_ & _ & A & B). split; apply wsigned_wide_ex; assumption. }
  induction c; cbn [wsigned_stmt wide_stmt_ok]; intros O; try contradiction; try exact I.
  - apply wsigned_wide_ex. exact O.
  - destruct O. auto.
  - destruct O as (O1 & O2 & O3). auto.
  - destruct O. auto.
Qed.
End Width.

Theorem wsigned_programs n fuel env st c : 65 <= n < 2 ^ 31 -> showing n env st -> wsigned_stmt n c -> same_shown n (lib_run fuel env c) (wsigned_run n fuel st c).
Proof. intros Hn D O. rewrite programs_any; [|intros k; apply D|apply (wsigned_wide_stmt n Hn); exact O]. apply wrun; assumption. Qed.

(** * without overflow: the integers *)
Section Inside.
Variable n : Z.
Hypothesis Hn : 65 <= n < 2 ^ 31.
Definition strict (z : Z) : Prop := - 2 ^ (n - 1) < z < 2 ^ (n - 1).
Lemma inside_ok z r : inside n z = Ok r -> r = z /\ strict z /\ around n z = z.
Proof.
  unfold inside. destruct ((_ <? _) && _) eqn:E; [|discriminate]. intros H. injection H as <-. apply andb_true_iff in E as [A B]. apply Z.ltb_lt in A, B. split; [reflexivity|]. split; [split; assumption|].
  apply around_id; [lia|]. apply within_iff. lia.
Qed.
Lemma plain_bin_ok o x y r : strict x -> strict y -> plain_bin n o x y = Ok r -> wsigned_bin n o x y = r /\ strict r.
Proof.
  intros X Y. unfold strict in X, Y. pose proof (half n Hn) as [P Q]. destruct o; cbn [plain_bin wsigned_bin]; try discriminate; intros E.
  - apply inside_ok in E as (-> & S & A). split; assumption.
  - apply inside_ok in E as (-> & S & A). split; assumption.
  - apply inside_ok in E as (-> & S & _). split; [reflexivity|exact S].
  - apply inside_ok in E as (-> & S & _). split; [reflexivity|exact S].
  - apply inside_ok in E as (-> & S & _). split; [reflexivity|exact S].
  - destruct (y <? 0); [discriminate|]. apply inside_ok in E as (-> & S & A). split; assumption.
  - destruct (Z.ltb_spec x 0); [discriminate|]. destruct (Z.ltb_spec y 0); [discriminate|]. cbn [orb] in E. injection E as <-. rewrite Z.mod_small by lia.
    assert (R : 0 <= x / 2 ^ y <= x). { pose proof (Z.pow_pos_nonneg 2 y ltac:(lia) ltac:(lia)). split; [apply Z.div_pos; lia|]. apply Z.div_le_upper_bound; nia. }
    split; [apply around_id; [lia|]; apply within_iff; lia|unfold strict; lia].
Qed.
Lemma plain_ex st : (forall k, strict (st k)) -> forall e r, wsigned_ex n e -> plain_value n st e = Ok r -> wsigned_value n st e = r /\ strict r.
Proof.
  intros D. pose proof (half n Hn) as [P Q]. fix IH 1. intros e r. destruct e as [k|msb lsb s z|o e|o e f]; cbn [wsigned_ex plain_value wsigned_value]; intros O E.
  - injection E as <-. split; [reflexivity|apply D].
  - injection E as <-. split; [reflexivity|]. assert (2 ^ 64 <= 2 ^ (n - 1)) by (apply Z.pow_le_mono_r; lia). unfold strict. lia.
  - destruct o; try contradiction. destruct e as [| |o e|]; try contradiction. destruct O as [O O2]. destruct (plain_value n st e) as [x| | | |] eqn:F; try (destruct o; discriminate). destruct (IH e x O2 F) as [-> S].
    destruct O as [-> | ->]; cbn [bind] in E.
    + apply inside_ok in E as (-> & T & _). split; [reflexivity|exact T].
    + injection E as <-. unfold strict in *. split; [|lia]. apply around_id; [lia|]. apply within_iff. lia.
  - destruct O as (_ & Oe & Of). destruct (plain_value n st e) as [x| | | |] eqn:F; try discriminate. destruct (plain_value n st f) as [y| | | |] eqn:G; try discriminate. cbn [bind] in E.
    destruct (IH e x Oe F) as [-> X]. destruct (IH f y Of G) as [-> Y]. apply plain_bin_ok; assumption.
Qed.
Lemma above_strict x y : strict x -> strict y -> wide_above n x y = Ok (y <? x).
Proof. unfold strict, wide_above. intros X Y. destruct ((x <? 0) && (y <? 0)); [|reflexivity]. destruct (Z.eqb_spec x (- 2 ^ (n - 1))); [lia|]. destruct (Z.eqb_spec y (- 2 ^ (n - 1))); [lia|]. reflexivity. Qed.
Lemma plain_test st t b : (forall k, strict (st k)) -> wsigned_test n t -> over_test (plain_value n) st t = Ok b -> wsigned_holds n st t = Ok b.
Proof.
  intros D O E. destruct t as [r e f|e|e i|e]; cbn [wsigned_test over_test wsigned_holds] in *; try contradiction. destruct O as (R & _ & Oe & Of).
  destruct (plain_value n st e) as [x| | | |] eqn:F; try discriminate. destruct (plain_value n st f) as [y| | | |] eqn:G; try discriminate. cbn [bind] in E. injection E as <-.
  destruct (plain_ex st D e x Oe F) as [-> X]. destruct (plain_ex st D f y Of G) as [-> Y]. destruct R as [-> | ->]; cbn [holds]; apply above_strict; assumption.
Qed.
Lemma put_strict st k z : (forall k, strict (st k)) -> strict z -> forall j, strict (put st k z j).
Proof. intros D S j. unfold put. destruct (Nat.eqb j k); [exact S|apply D]. Qed.
Lemma plain_wide fuel : forall st c st', (forall k, strict (st k)) -> wsigned_stmt n c -> plain_run n fuel st c = Ok st' -> wsigned_run n fuel st c = Ok st' /\ forall k, strict (st' k).
Proof.
  unfold plain_run. induction fuel as [|fuel IH]; intros st c st' D O E; [discriminate|].
  assert (Next : forall c d, wsigned_stmt n c -> wsigned_stmt n d -> (let! s := over_run (plain_value n) (inside n) fuel st c in over_run (plain_value n) (inside n) fuel s d) = Ok st' ->
    (let! s := wsigned_run n fuel st c in wsigned_run n fuel s d) = Ok st' /\ forall k, strict (st' k)).
  { intros c' d' Oc Od F. destruct (over_run (plain_value n) (inside n) fuel st c') as [s| | | |] eqn:G; try discriminate. cbn [bind] in F.
    destruct (IH _ _ _ D Oc G) as [-> D']. cbn [bind]. apply IH; assumption. }
  destruct c; cbn [over_run wsigned_run wsigned_stmt] in *; try discriminate.
  - injection E as <-. split; [reflexivity|exact D].
  - destruct (plain_value n st e) as [x| | | |] eqn:F; try discriminate. cbn [bind] in E. injection E as <-. destruct (plain_ex st D e x O F) as [-> X]. split; [reflexivity|]. apply put_strict; assumption.
  - destruct (inside n (st k + 1)) as [x| | | |] eqn:F; try discriminate. apply inside_ok in F as (-> & S & A). cbn [bind] in E. injection E as <-. rewrite A. split; [reflexivity|]. apply put_strict; assumption.
  - destruct (inside n (st k - 1)) as [x| | | |] eqn:F; try discriminate. apply inside_ok in F as (-> & S & A). cbn [bind] in E. injection E as <-. rewrite A. split; [reflexivity|]. apply put_strict; assumption.
  - apply Next; (exact E || apply O).
  - destruct O as (O1 & O2 & O3). destruct (over_test (plain_value n) st t) as [b| | | |] eqn:G; try discriminate. cbn [bind] in E. rewrite (plain_test st t b D O1 G). cbn [bind]. destruct b; apply IH; assumption.
  - destruct O as (O1 & O2). destruct (over_test (plain_value n) st t) as [b| | | |] eqn:G; try discriminate. cbn [bind] in E. rewrite (plain_test st t b D O1 G). cbn [bind]. destruct b; [apply Next; [exact O2|split; assumption|exact E]|].
    injection E as <-. split; [reflexivity|exact D].
Qed.
End Inside.
Theorem wsigned_integers n fuel env st c st' : 65 <= n < 2 ^ 31 -> showing n env st -> (forall k, st k <> - 2 ^ (n - 1)) -> wsigned_stmt n c -> plain_run n fuel st c = Ok st' ->
  exists env', lib_run fuel env c = Ok env' /\ showing n env' st'.
Proof.
  intros Hn D S O E. assert (D' : forall k, strict n (st k)). { intros k. pose proof (T_range n Hn (env k) (proj1 (D k))) as R. rewrite (proj2 (D k)) in R. specialize (S k). unfold strict. lia. }
  destruct (plain_wide n Hn fuel st c st' D' O E) as [W _]. pose proof (wsigned_programs n fuel env st c Hn D O) as X. rewrite W in X. destruct (lib_run fuel env c) as [env'| | | |]; cbn [same_shown] in X; try contradiction.
  exists env'. split; [reflexivity|exact X].
Qed.
