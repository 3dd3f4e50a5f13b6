(** Taking a number apart into digits. *)
From Coq Require Import ZArith List Bool Lia.
From Verif Require Import Cpp ZBits BigNum Bit Logic Spec SpecExact SpecMachine SpecWide SpecIff Client SpecProg SpecDigits Digits BitProofs BitExt BitMain BitMain3 BitMain5 LogicMain Iff3 Iff25 ProgExact SaturateProofs.
From Verif Require Iff17 SortProofs.
Import ListNotations.
Open Scope Z_scope.
Local Ltac Zify.zify_post_hook ::= idtac.

Lemma digits_ok n zero d : 2 <= n <= 96 -> typed zero n false -> tidy zero -> num zero = 0 -> typed d n false -> tidy d -> 2 <= num d < 2 ^ 32 ->
  forall fuel k a, typed a n false -> tidy a -> 0 <= k -> num a < 2 ^ k -> (Z.to_nat k < fuel)%nat -> exists ds, digits fuel zero d a = Ok ds /\ digits_of n (num d) (num a) ds.
Proof.
  intros Hn Z Tz Ez D Td Rd. induction fuel as [|f IH]; intros k a A Ta K Ak F; [lia|]. cbn [digits]. rewrite (SortProofs.less_value zero a n false) by (assumption || lia || discriminate). rewrite !(SortProofs.value_num _ n) by assumption. rewrite Ez. cbn [bind].
  destruct (tidy_state n a ltac:(lia) A Ta) as [_ RA]. destruct (Z.ltb_spec 0 (num a)) as [P|P].
  - destruct (division a d n n) as (q & r & Eq & Er & Tq & Tr & Dq & Dr & Ed & Br); try assumption; try lia.
    { intros _. rewrite Z.div_small by (split; [lia|]; apply Z.lt_trans with (2 ^ 32); [lia|reflexivity]). split; [|split].
      - apply visible_low. rewrite Z.mod_small by lia. lia.
      - intros _. reflexivity.
      - intros H. specialize (H 0 ltac:(lia)). change (2 ^ (64 * 0)) with 1 in H. rewrite Z.div_1_r in H. rewrite Z.mod_small in H; [exact H|]. split; [apply Z.div_pos; [lia|reflexivity]|]. apply Z.div_lt_upper_bound; [reflexivity|]. change (2 ^ 64 * 2 ^ 32) with (2 ^ 96). apply Z.lt_le_trans with (2 ^ n); [lia|]. apply Z.pow_le_mono_r; lia. }
    rewrite Z.max_id in *. rewrite Er, Eq. cbn [bind]. assert (K0 : 0 < k) by (destruct (Z.eq_dec k 0) as [->|]; [change (2 ^ 0) with 1 in Ak; lia|lia]).
    destruct (tidy_state n q ltac:(lia) Tq Dq) as [_ RQ].
    destruct (IH (k - 1) q Tq Dq) as (ds & E & N & I & L); [lia| |lia|].
    { assert (P2 : 2 ^ k = 2 * 2 ^ (k - 1)) by (rewrite <- Z.pow_succ_r by lia; f_equal; lia). nia. }
    rewrite E. cbn [bind]. exists (r :: ds). split; [reflexivity|]. split; [|split].
    + cbn [digits_num]. rewrite N. lia.
    + intros x [<-|Hx]; [split; [exact Tr|split; [exact Dr|lia]]|apply I; exact Hx].
    + intros l x Q. destruct l as [|y l]; [|injection Q as _ Q; apply (L l x Q)]. injection Q as -> ->. cbn [digits_num] in N. rewrite <- N in Ed. lia.
  - exists []. split; [reflexivity|]. split; [cbn; lia|]. split; [intros x []|]. intros l x Q. destruct l; discriminate.
Qed.
Lemma digits_all n fuel zero d a : 2 <= n <= 96 -> (Z.to_nat n < fuel)%nat -> typed zero n false -> tidy zero -> num zero = 0 -> typed d n false -> tidy d -> 2 <= num d < 2 ^ 32 -> typed a n false -> tidy a ->
  exists ds, digits fuel zero d a = Ok ds /\ digits_of n (num d) (num a) ds.
Proof. intros Hn F Z Tz Ez D Td Rd A Ta. destruct (tidy_state n a ltac:(lia) A Ta) as [_ RA]. apply (digits_ok n zero d Hn Z Tz Ez D Td Rd fuel n a A Ta ltac:(lia) ltac:(lia) F). Qed.
Lemma kept_tidy n z : 2 <= n < 2 ^ 31 -> 0 <= z < 2 ^ n -> typed (vec_of n false z) n false /\ tidy (vec_of n false z) /\ num (vec_of n false z) = z.
Proof.
  intros Hn Hz. pose proof (room_le n ltac:(lia)). split; [apply vec_of_typed; lia|]. split; [apply (tidy_u_iff _ n ltac:(lia) (vec_of_typed n false z ltac:(lia))); rewrite kept_stored, Z.mod_small by lia; exact Hz|]. rewrite vec_of_num, Z.mod_small by lia. reflexivity.
Qed.
(** 2^96 has no digits but one 0, whatever the base *)
Lemma digits_wrong n fuel b : 97 <= n < 2 ^ 31 -> 2 <= b < 2 ^ 32 -> (2 <= fuel)%nat -> digits fuel (vec_of n false 0) (vec_of n false b) (vec_of n false (2 ^ 96)) = Ok [vec_of n false 0].
Proof.
  intros Hn Hb F. destruct fuel as [|[|f]]; [lia|lia|]. pose proof (room_le n ltac:(lia)) as R. assert (P : 2 ^ 96 < 2 ^ n) by (apply Z.pow_lt_mono_r; lia). assert (L : 2 ^ 32 < 2 ^ 96) by reflexivity.
  cbn [digits]. rewrite k_lt by lia. change (0 <? 2 ^ 96) with true. cbn [bind].
  assert (Dv : kept_division n (2 ^ 96) b = Ok (0, 0)).
  { unfold kept_division. replace (n <=? 64) with false by lia. unfold divided. rewrite (Z.mod_small b (2 ^ 64)) by (split; [lia|apply Z.lt_trans with (2 ^ 32); [lia|reflexivity]]).
    assert (NZ : seems_zero n b = false). { destruct (seems_zero n b) eqn:S; [|reflexivity]. exfalso. apply Iff17.zero_hollow in S; [|lia|lia]. assert (b = 0); [|lia]. apply Z.bits_inj'. intros p Hp. rewrite Z.bits_0. destruct (Z_lt_le_dec p 32) as [C|C]; [apply S; [lia|rewrite Z.mod_small; lia]|]. rewrite <- (Z.mod_small b (2 ^ 32)) by lia. apply Z.mod_pow2_bits_high. lia. }
    rewrite NZ. replace (b =? 1) with false by lia. rewrite andb_false_r. replace (2 ^ 96 =? b) with false by lia. replace (2 ^ 96 <? b) with false by lia.
    assert (S1 : seems_small n (2 ^ 96) = true). { apply Iff17.small_hollow; [lia|lia|]. change (2 ^ 96 / 2 ^ 64) with (2 ^ 32). intros p Hp Hq. rewrite Z.pow2_bits_false; [reflexivity|]. intros Q. subst p. vm_compute in Hq. discriminate. }
    assert (S2 : seems_small n b = true). { apply Iff17.small_hollow; [lia|lia|]. rewrite Z.div_small by (split; [lia|apply Z.lt_trans with (2 ^ 32); [lia|reflexivity]]). intros p _ _. apply Z.bits_0. }
    rewrite S1, S2. cbn [andb]. replace (b =? 0) with false by lia. change (2 ^ 96 mod 2 ^ 64) with 0. rewrite Z.div_0_l, Z.mod_0_l by lia. cbn [omap bind fst snd]. rewrite Z.mod_0_l by lia. reflexivity. }
  rewrite k_rem, k_div by lia. rewrite Dv. cbn [omap bind fst snd]. rewrite k_lt by lia. reflexivity.
Qed.
Lemma digits_exact n b : 2 <= n < 2 ^ 31 -> 2 <= b < 2 ^ 32 -> b < 2 ^ n ->
  (forall fuel zero d a, (Z.to_nat n < fuel)%nat -> typed zero n false -> tidy zero -> num zero = 0 -> typed d n false -> tidy d -> num d = b -> typed a n false -> tidy a ->
     exists ds, digits fuel zero d a = Ok ds /\ digits_of n b (num a) ds) <-> n <= 96.
Proof.
  intros Hn Hb Bn. split.
  - intros H. destruct (Z.le_gt_cases n 96) as [L|L]; [exact L|]. exfalso. assert (P : 2 ^ 96 < 2 ^ n) by (apply Z.pow_lt_mono_r; lia). pose proof (pow2_pos n ltac:(lia)).
    destruct (kept_tidy n 0 Hn ltac:(lia)) as (T0 & D0 & N0). destruct (kept_tidy n b Hn ltac:(lia)) as (T1 & D1 & N1). destruct (kept_tidy n (2 ^ 96) Hn ltac:(lia)) as (T2 & D2 & N2).
    destruct (H (S (S (Z.to_nat n))) _ _ _ ltac:(lia) T0 D0 N0 T1 D1 N1 T2 D2) as (ds & E & V & _). rewrite digits_wrong in E by lia. injection E as <-. cbn [digits_num] in V. rewrite N0, N2 in V. lia.
  - intros L fuel zero d a F Z Tz Ez D Td Ed A Ta. rewrite <- Ed. apply digits_all; try assumption; lia.
Qed.
