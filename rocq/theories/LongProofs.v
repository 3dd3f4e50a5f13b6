(** The mean of two vectors; numbers kept in several vectors. *)
From Coq Require Import ZArith List Bool Lia.
From Verif Require Import Cpp ZBits BigNum Bit Logic Spec SpecExact SpecMachine SpecWide Client SpecProg SpecLong Long BitProofs BitExt LogicMain Iff3 Iff25 ProgExact BothProofs SaturateProofs.
From Verif Require Program4Proofs.
Import ListNotations.
Open Scope Z_scope.
Local Ltac Zify.zify_post_hook ::= idtac.

Lemma sum_split x y : x + y = Z.lxor x y + 2 * Z.land x y.
Proof.
  assert (A : forall x y, x = Z.ldiff x y + Z.land x y).
  { intros u v. rewrite Z.add_nocarry_lxor; apply Z.bits_inj'; intros p Hp; rewrite ?Z.lxor_spec, ?Z.land_spec, ?Z.ldiff_spec, ?Z.bits_0, ?Z.land_spec; destruct (Z.testbit u p), (Z.testbit v p); reflexivity. }
  assert (B : Z.lxor x y = Z.ldiff x y + Z.ldiff y x).
  { rewrite Z.add_nocarry_lxor; apply Z.bits_inj'; intros p Hp; rewrite ?Z.lxor_spec, ?Z.land_spec, ?Z.ldiff_spec, ?Z.bits_0; destruct (Z.testbit x p), (Z.testbit y p); reflexivity. }
  pose proof (A x y). pose proof (A y x) as C. rewrite (Z.land_comm y x) in C. lia.
Qed.
Lemma mean_split x y : Z.land x y + Z.lxor x y / 2 = (x + y) / 2.
Proof. rewrite (sum_split x y). rewrite Z.mul_comm, Z.div_add by lia. lia. Qed.
Lemma op_range n op x y : 0 <= n -> (forall p, 0 <= p -> Z.testbit x p = false -> Z.testbit y p = false -> Z.testbit (op x y) p = false) -> 0 <= x < 2 ^ n -> 0 <= y < 2 ^ n -> 0 <= op x y -> 0 <= op x y < 2 ^ n.
Proof.
  intros N O X Y P. replace (op x y) with (op x y mod 2 ^ n); [apply Z.mod_pos_bound; apply Z.pow_pos_nonneg; lia|].
  apply Z.bits_inj'. intros p Hp. rewrite Z.testbit_mod_pow2 by lia. destruct (Z.ltb_spec p n) as [L|L]; [reflexivity|]. symmetry. apply O; [lia| |]; [rewrite <- (Z.mod_small x (2 ^ n)) by lia|rewrite <- (Z.mod_small y (2 ^ n)) by lia]; apply Z.mod_pow2_bits_high; lia.
Qed.
Lemma land_range n x y : 0 <= n -> 0 <= x < 2 ^ n -> 0 <= y < 2 ^ n -> 0 <= Z.land x y < 2 ^ n.
Proof. intros N X Y. apply op_range; try assumption; [|apply Z.land_nonneg; lia]. intros p _ A B. rewrite Z.land_spec, A. reflexivity. Qed.
Lemma lxor_range n x y : 0 <= n -> 0 <= x < 2 ^ n -> 0 <= y < 2 ^ n -> 0 <= Z.lxor x y < 2 ^ n.
Proof. intros N X Y. apply op_range; try assumption; [|apply Z.lxor_nonneg; lia]. intros p _ A B. rewrite Z.lxor_spec, A, B. reflexivity. Qed.
Lemma half_shr n x : 2 <= n < 2 ^ 31 -> 0 <= x < 2 ^ room n -> bit_shr (vec_of n false x) (vec_of n false 1) = Ok (vec_of n false ((x mod 2 ^ n) / 2)).
Proof.
  intros Hn X. pose proof (room_range n ltac:(lia)) as (R & R8 & _). assert (P1 : 1 < 2 ^ room n). { apply Z.lt_le_trans with (2 ^ 8); [reflexivity|]. apply Z.pow_le_mono_r; lia. }
  rewrite k_shr; [|lia|exact X|apply (vec_of_typed n false 1); lia]. unfold kept_right. rewrite kept_stored by lia. rewrite (Z.mod_small 1) by lia. change (2 ^ 1) with 2.
  assert (S : small (vec_of n false 1) = (n <=? 64)). { unfold small. rewrite (typed_bw (vec_of n false 1) n false); [reflexivity|lia|apply vec_of_typed; lia]. }
  assert (E : (x / 2) mod 2 ^ (n - 1) = (x mod 2 ^ n) / 2).
  { replace n with (1 + (n - 1)) at 2 by lia. rewrite Z.pow_add_r by lia. change (2 ^ 1) with 2. pose proof (pow2_pos (n - 1) ltac:(lia)). rewrite Z.rem_mul_r by lia. rewrite (Z.mul_comm 2), Z.div_add by lia. rewrite (Z.div_small (x mod 2)) by (apply Z.mod_pos_bound; lia). lia. }
  destruct (Z.leb_spec n 64) as [L|L].
  - rewrite S. cbn [negb]. replace ((0 <=? 1) && (1 <? n)) with true by lia. cbn [omap bind]. rewrite E. reflexivity.
  - unfold any_amount. rewrite S. rewrite kept_stored by lia. rewrite (Z.mod_small 1) by lia. cbn [omap bind]. reflexivity.
Qed.
Lemma one_state n one : 2 <= n < 2 ^ 31 -> typed one n false -> tidy one -> num one = 1 -> one = vec_of n false 1.
Proof. intros Hn O T E. destruct (tidy_state n one Hn O T) as [X _]. rewrite E in X. exact X. Qed.

Lemma mean_all n one a b : 2 <= n -> typed a n false -> tidy a -> typed b n false -> tidy b -> typed one n false -> tidy one -> num one = 1 ->
  exists r, mean one a b = Ok r /\ typed r n false /\ tidy r /\ num r = (num a + num b) / 2.
Proof.
  intros Hn A Ta B Tb O To E. pose proof (typed_lt a n false ltac:(lia) A) as Lt. destruct (tidy_state n a ltac:(lia) A Ta) as [EA RA]. destruct (tidy_state n b ltac:(lia) B Tb) as [EB RB]. rewrite (one_state n one ltac:(lia) O To E).
  set (x := num a) in *. set (y := num b) in *. clearbody x y. subst a b. pose proof (room_le n ltac:(lia)) as P. pose proof (land_range n x y ltac:(lia) RA RB) as RL. pose proof (lxor_range n x y ltac:(lia) RA RB) as RX.
  unfold mean. rewrite k_and by lia. assert (EL : (if n <=? 64 then Z.land x y else Z.land x y mod 2 ^ n) = Z.land x y) by (destruct (n <=? 64); [reflexivity|apply Z.mod_small; exact RL]). rewrite EL. cbn [bind].
  rewrite k_xor by lia. cbn [bind]. rewrite half_shr by lia. cbn [bind]. rewrite (Z.mod_small (Z.lxor x y)) by lia.
  assert (RH : 0 <= Z.lxor x y / 2 <= Z.lxor x y). { split; [apply Z.div_pos; lia|]. apply Z.div_le_upper_bound; lia. }
  assert (RS : 0 <= (x + y) / 2 < 2 ^ n). { split; [apply Z.div_pos; lia|]. apply Z.div_lt_upper_bound; lia. }
  rewrite k_add by lia. rewrite mean_split, (Z.mod_small ((x + y) / 2)) by lia. eexists. split; [reflexivity|]. split; [apply vec_of_typed; lia|]. split.
  - apply (tidy_u_iff _ n ltac:(lia) (vec_of_typed n false _ ltac:(lia))). rewrite kept_stored, Z.mod_small by lia. exact RS.
  - rewrite vec_of_num, Z.mod_small by lia. reflexivity.
Qed.
Lemma plain_mean_exact n one a b : 2 <= n -> typed a n false -> tidy a -> typed b n false -> tidy b -> typed one n false -> tidy one -> num one = 1 ->
  exists r, plain_mean one a b = Ok r /\ typed r n false /\ num r = ((num a + num b) mod 2 ^ n) / 2 /\ (num r = (num a + num b) / 2 <-> num a + num b < 2 ^ n).
Proof.
  intros Hn A Ta B Tb O To E. pose proof (typed_lt a n false ltac:(lia) A) as Lt. destruct (tidy_state n a ltac:(lia) A Ta) as [EA RA]. destruct (tidy_state n b ltac:(lia) B Tb) as [EB RB]. rewrite (one_state n one ltac:(lia) O To E).
  set (x := num a) in *. set (y := num b) in *. clearbody x y. subst a b. pose proof (room_le n ltac:(lia)) as P. pose proof (pow2_pos n ltac:(lia)) as Pn.
  unfold plain_mean. rewrite k_add by lia. cbn [bind]. rewrite half_shr by (try lia; apply Z.mod_pos_bound; lia). eexists. split; [reflexivity|]. split; [apply vec_of_typed; lia|].
  assert (M : ((x + y) mod 2 ^ room n) mod 2 ^ n = (x + y) mod 2 ^ n).
  { destruct (room_range n ltac:(lia)) as (R & _). replace (room n) with (n + (room n - n)) by lia. rewrite Z.pow_add_r by lia. rewrite Z.rem_mul_r by (pose proof (pow2_pos (room n - n) ltac:(lia)); lia). rewrite Z.mul_comm, Z_mod_plus_full. apply Z.mod_mod. lia. }
  rewrite M. pose proof (Z.mod_pos_bound (x + y) (2 ^ n) ltac:(lia)) as Bd. assert (V : num (vec_of n false ((x + y) mod 2 ^ n / 2)) = (x + y) mod 2 ^ n / 2).
  { rewrite vec_of_num by lia. apply Z.mod_small. split; [apply Z.div_pos; lia|]. apply Z.div_lt_upper_bound; lia. }
  rewrite V. split; [reflexivity|]. split.
  - intros Q. destruct (Z.lt_ge_cases (x + y) (2 ^ n)) as [L|L]; [exact L|]. exfalso. assert (M1 : (x + y) mod 2 ^ n = x + y - 2 ^ n) by (symmetry; apply Z.mod_unique with (q := 1); lia). rewrite M1 in Q.
    assert (D : (x + y) / 2 = (x + y - 2 ^ n) / 2 + 2 ^ (n - 1)). { replace (x + y) with (x + y - 2 ^ n + 2 ^ (n - 1) * 2) at 1; [apply Z.div_add; lia|]. replace (2 ^ n) with (2 ^ (n - 1) * 2); [lia|]. rewrite Z.mul_comm, <- Z.pow_succ_r by lia. f_equal. lia. }
    pose proof (pow2_pos (n - 1) ltac:(lia)). lia.
  - intros L. rewrite Z.mod_small by lia. reflexivity.
Qed.
Lemma plain_mean_wrong n : 2 <= n < 2 ^ 31 -> exists one a b r, typed a n false /\ tidy a /\ typed b n false /\ tidy b /\ typed one n false /\ tidy one /\ num one = 1 /\ plain_mean one a b = Ok r /\ num r <> (num a + num b) / 2.
Proof.
  intros Hn. pose proof (pow2_pos n ltac:(lia)) as Pn. assert (P4 : 4 <= 2 ^ n) by (change 4 with (2 ^ 2); apply Z.pow_le_mono_r; lia). pose proof (room_le n ltac:(lia)) as P.
  assert (T : forall z, 0 <= z < 2 ^ n -> typed (vec_of n false z) n false /\ tidy (vec_of n false z) /\ num (vec_of n false z) = z).
  { intros z Hz. split; [apply vec_of_typed; lia|]. split; [apply (tidy_u_iff _ n ltac:(lia) (vec_of_typed n false z ltac:(lia))); rewrite kept_stored, Z.mod_small by lia; exact Hz|]. rewrite vec_of_num, Z.mod_small by lia. reflexivity. }
  destruct (T 1 ltac:(lia)) as (T1 & D1 & N1). destruct (T (2 ^ n - 1) ltac:(lia)) as (T2 & D2 & N2).
  destruct (plain_mean_exact n _ _ _ ltac:(lia) T2 D2 T1 D1 T1 D1 N1) as (r & Er & _ & _ & Q). exists (vec_of n false 1), (vec_of n false (2 ^ n - 1)), (vec_of n false 1), r.
  split; [exact T2|]. split; [exact D2|]. split; [exact T1|]. split; [exact D1|]. split; [exact T1|]. split; [exact D1|]. split; [exact N1|]. split; [exact Er|]. intros X. apply Q in X. lia.
Qed.

(** * several vectors *)
Lemma full_state n a : full_width n -> typed a n false -> a = vec_of n false (num a) /\ 0 <= num a < 2 ^ n.
Proof.
  intros W A. destruct (room_full n W) as [H2 R]. pose proof (typed_lt a n false ltac:(lia) A) as Lt. apply tidy_state; [lia|exact A|].
  destruct (kept_state n a ltac:(lia) A) as [B _]. apply (tidy_u_iff a n ltac:(lia) A). rewrite <- R. exact B.
Qed.
Lemma long_add_full n one : full_width n -> typed one n false -> num one = 1 -> forall ps c, (forall p, In p ps -> typed (fst p) n false /\ typed (snd p) n false) ->
  exists rs d, long_add one ps c = Ok (rs, d) /\ length rs = length ps /\ (forall r, In r rs -> typed r n false) /\
    parts_num n rs + 2 ^ (n * Z.of_nat (length ps)) * Z.b2z d = parts_num n (firsts ps) + parts_num n (seconds ps) + Z.b2z c.
Proof.
  intros W O E. destruct (room_full n W) as [H2 R]. pose proof (typed_lt one n false ltac:(lia) O) as Lt. destruct (full_state n one W O) as [EO _]. rewrite E in EO. subst one. clear O E.
  assert (PR : 2 ^ room n = 2 ^ n) by (rewrite R; reflexivity). pose proof (pow2_pos n ltac:(lia)) as Pn. assert (P4 : 4 <= 2 ^ n) by (change 4 with (2 ^ 2); apply Z.pow_le_mono_r; lia). induction ps as [|[a b] ps IH]; intros c T.
  - exists [], c. cbn. split; [reflexivity|]. split; [reflexivity|]. split; [tauto|]. rewrite Z.mul_0_r. change (2 ^ 0) with 1. lia.
  - destruct (T (a, b) (or_introl eq_refl)) as [A B]. cbn [fst snd] in A, B. destruct (full_state n a W A) as [EA RA]. destruct (full_state n b W B) as [EB RB].
    cbn [firsts seconds map fst snd parts_num]. set (x := num a) in *. set (y := num b) in *. clearbody x y. subst a b. cbn [long_add].
    rewrite k_add by lia. cbn [bind]. rewrite R. set (s := (x + y) mod 2 ^ n). pose proof (Z.mod_pos_bound (x + y) (2 ^ n) ltac:(lia)) as Rs. fold s in Rs.
    set (t := (s + Z.b2z c) mod 2 ^ n). pose proof (Z.mod_pos_bound (s + Z.b2z c) (2 ^ n) ltac:(lia)) as Rt. fold t in Rt.
    assert (Et : (if c then bit_add (vec_of n false s) (vec_of n false 1) else Ok (vec_of n false s)) = Ok (vec_of n false t)).
    { unfold t. destruct c; cbn [Z.b2z]; [rewrite k_add by lia; rewrite R; reflexivity|]. rewrite Z.add_0_r, Z.mod_small by lia. reflexivity. }
    rewrite Et. cbn [bind]. rewrite k_lt by lia. cbn [bind].
    assert (Ee : (if s <? x then Ok true else bit_lt (vec_of n false t) (vec_of n false s)) = Ok ((s <? x) || (t <? s))). { destruct (s <? x); [reflexivity|]. rewrite k_lt by lia. reflexivity. }
    rewrite Ee. cbn [bind]. destruct (IH ((s <? x) || (t <? s))) as (rs & d & Er & L & Tr & Q). { intros p Hp. apply T. right. exact Hp. }
    rewrite Er. cbn [bind fst snd]. exists (vec_of n false t :: rs), d. split; [reflexivity|]. split; [cbn [length]; rewrite L; reflexivity|]. split. { intros r [<-|Hr]; [apply vec_of_typed; lia|apply Tr; exact Hr]. }
    cbn [parts_num length]. rewrite vec_of_num, Z.mod_small by lia. unfold firsts, seconds in Q. rewrite Nat2Z.inj_succ. unfold Z.succ. rewrite Z.mul_add_distr_l, Z.mul_1_r, Z.pow_add_r by lia.
    assert (Key : t + 2 ^ n * Z.b2z ((s <? x) || (t <? s)) = x + y + Z.b2z c).
    { assert (Bc : 0 <= Z.b2z c <= 1) by (destruct c; cbn; lia). destruct (Z.lt_ge_cases (x + y) (2 ^ n)) as [L1|L1].
      - assert (S1 : s = x + y) by (apply Z.mod_small; lia). replace (s <? x) with false by lia. cbn [orb]. destruct (Z.lt_ge_cases (s + Z.b2z c) (2 ^ n)) as [L2|L2].
        + assert (T1 : t = s + Z.b2z c) by (apply Z.mod_small; lia). replace (t <? s) with false by lia. cbn [Z.b2z]. lia.
        + assert (T1 : t = s + Z.b2z c - 2 ^ n) by (symmetry; apply Z.mod_unique with (q := 1); lia). replace (t <? s) with true by lia. cbn [Z.b2z]. lia.
      - assert (S1 : s = x + y - 2 ^ n) by (symmetry; apply Z.mod_unique with (q := 1); lia). replace (s <? x) with true by lia. cbn [orb Z.b2z]. assert (T1 : t = s + Z.b2z c) by (apply Z.mod_small; lia). lia. }
    set (K := 2 ^ (n * Z.of_nat (length ps))) in *. set (u := parts_num n rs) in *. set (v := parts_num n (map fst ps)) in *. set (w := parts_num n (map snd ps)) in *. set (e := Z.b2z (_ || _)) in *. set (dd := Z.b2z d) in *. clearbody K u v w e dd.
    replace (t + 2 ^ n * u + K * 2 ^ n * dd) with (t + 2 ^ n * (u + K * dd)) by ring. rewrite Q. replace (x + 2 ^ n * v + (y + 2 ^ n * w) + Z.b2z c) with (x + y + Z.b2z c + 2 ^ n * (v + w)) by ring. rewrite <- Key. ring.
Qed.
Definition sub_step (one a b : bit) (c : bool) : outcome (bit * bool) :=
  let! s := bit_sub a b in
  let! t := if c then bit_sub s one else Ok s in
  let! d := bit_lt a b in
  let! e := if d then Ok true else bit_lt s t in
  Ok (t, e).
Lemma sub_step_all n one a b c : 1 <= n -> typed one n false -> tidy one -> num one = 1 -> typed a n false -> tidy a -> typed b n false -> tidy b ->
  exists t e, sub_step one a b c = Ok (t, e) /\ typed t n false /\ num t - 2 ^ n * Z.b2z e = num a - num b - Z.b2z c.
Proof.
  intros Hn O To E A Ta B Tb. destruct (Z.eq_dec n 1) as [->|N1].
  - destruct (bits1 a b one A B O) as (i & j & k & -> & -> & ->). assert (k = true) as -> by (destruct k; [reflexivity|discriminate]).
    destruct i, j, c; (eexists; eexists; split; [vm_compute; reflexivity|]; split; [assumption|vm_compute; reflexivity]).
  - pose proof (typed_lt a n false Hn A) as Lt. destruct (tidy_state n a ltac:(lia) A Ta) as [EA RA]. destruct (tidy_state n b ltac:(lia) B Tb) as [EB RB]. rewrite (one_state n one ltac:(lia) O To E).
    set (x := num a) in *. set (y := num b) in *. clearbody x y. subst a b. pose proof (room_le n ltac:(lia)) as P. pose proof (pow2_pos n ltac:(lia)) as Pn. assert (P4 : 4 <= 2 ^ n) by (change 4 with (2 ^ 2); apply Z.pow_le_mono_r; lia).
    unfold sub_step. rewrite k_sub by lia. cbn [bind]. set (s := (x - y) mod 2 ^ room n). pose proof (Z.mod_pos_bound (x - y) (2 ^ room n) ltac:(lia)) as Rs. fold s in Rs.
    set (t := (s - Z.b2z c) mod 2 ^ room n). pose proof (Z.mod_pos_bound (s - Z.b2z c) (2 ^ room n) ltac:(lia)) as Rt. fold t in Rt.
    assert (Et : (if c then bit_sub (vec_of n false s) (vec_of n false 1) else Ok (vec_of n false s)) = Ok (vec_of n false t)).
    { unfold t. destruct c; cbn [Z.b2z]; [rewrite k_sub by lia; reflexivity|]. rewrite Z.sub_0_r, Z.mod_small by lia. reflexivity. }
    rewrite Et. cbn [bind]. rewrite k_lt by lia. cbn [bind].
    assert (Ee : (if x <? y then Ok true else bit_lt (vec_of n false s) (vec_of n false t)) = Ok ((x <? y) || (s <? t))). { destruct (x <? y); [reflexivity|]. rewrite k_lt by lia. reflexivity. }
    rewrite Ee. cbn [bind]. eexists. eexists. split; [reflexivity|]. split; [apply vec_of_typed; lia|]. rewrite vec_of_num by lia.
    destruct (room_range n ltac:(lia)) as (Rm & _). assert (PR : 2 ^ room n = 2 ^ (room n - n) * 2 ^ n) by (rewrite <- Z.pow_add_r by lia; f_equal; lia). pose proof (pow2_pos (room n - n) ltac:(lia)) as Pd.
    assert (Bc : 0 <= Z.b2z c <= 1) by (destruct c; cbn; lia). destruct (Z.lt_ge_cases x y) as [L|L].
    + replace (x <? y) with true by lia. cbn [orb]. change (Z.b2z true) with 1. assert (S1 : s = x - y + 2 ^ room n) by (symmetry; apply Z.mod_unique with (q := -1); lia). assert (T1 : t = s - Z.b2z c) by (apply Z.mod_small; lia).
      assert (M : t mod 2 ^ n = x - y - Z.b2z c + 2 ^ n). { symmetry. apply Z.mod_unique with (q := 2 ^ (room n - n) - 1); [lia|]. rewrite T1, S1, PR. ring. } lia.
    + replace (x <? y) with false by lia. cbn [orb]. assert (S1 : s = x - y) by (apply Z.mod_small; lia). destruct (Z.le_gt_cases (Z.b2z c) s) as [L2|L2].
      * assert (T1 : t = s - Z.b2z c) by (apply Z.mod_small; lia). replace (s <? t) with false by lia. change (Z.b2z false) with 0. rewrite Z.mod_small by lia. lia.
      * assert (T1 : t = s - Z.b2z c + 2 ^ room n) by (symmetry; apply Z.mod_unique with (q := -1); lia). replace (s <? t) with true by lia. change (Z.b2z true) with 1.
        assert (M : t mod 2 ^ n = s - Z.b2z c + 2 ^ n). { symmetry. apply Z.mod_unique with (q := 2 ^ (room n - n) - 1); [lia|]. rewrite T1, PR. ring. } lia.
Qed.
Lemma long_sub_step one a b ps c : long_sub one ((a, b) :: ps) c = let! p := sub_step one a b c in let! r := long_sub one ps (snd p) in Ok (fst p :: fst r, snd r).
Proof.
  cbn [long_sub]. unfold sub_step. destruct (bit_sub a b) as [s| | | |]; cbn [bind]; try reflexivity. destruct (if c then bit_sub s one else Ok s) as [t| | | |]; cbn [bind]; try reflexivity.
  destruct (bit_lt a b) as [d| | | |]; cbn [bind]; try reflexivity. destruct (if d then Ok true else bit_lt s t) as [e| | | |]; reflexivity.
Qed.
Lemma long_sub_all n one : 1 <= n -> typed one n false -> tidy one -> num one = 1 -> forall ps c, (forall p, In p ps -> typed (fst p) n false /\ tidy (fst p) /\ typed (snd p) n false /\ tidy (snd p)) ->
  exists rs d, long_sub one ps c = Ok (rs, d) /\ length rs = length ps /\ (forall r, In r rs -> typed r n false) /\
    parts_num n rs - 2 ^ (n * Z.of_nat (length ps)) * Z.b2z d = parts_num n (firsts ps) - parts_num n (seconds ps) - Z.b2z c.
Proof.
  intros Hn O To E. induction ps as [|[a b] ps IH]; intros c T.
  - exists [], c. cbn. split; [reflexivity|]. split; [reflexivity|]. split; [tauto|]. rewrite Z.mul_0_r. change (2 ^ 0) with 1. lia.
  - destruct (T (a, b) (or_introl eq_refl)) as (A & Ta & B & Tb). cbn [fst snd] in A, Ta, B, Tb. destruct (sub_step_all n one a b c Hn O To E A Ta B Tb) as (t & e & Es & Tt & Key).
    destruct (IH e) as (rs & d & Er & L & Tr & Q). { intros p Hp. apply T. right. exact Hp. }
    rewrite long_sub_step, Es. cbn [bind fst snd]. rewrite Er. cbn [bind fst snd]. exists (t :: rs), d. split; [reflexivity|]. split; [cbn [length]; rewrite L; reflexivity|]. split. { intros r [<-|Hr]; [exact Tt|apply Tr; exact Hr]. }
    cbn [firsts seconds map fst snd parts_num length]. unfold firsts, seconds in Q. rewrite Nat2Z.inj_succ. unfold Z.succ. rewrite Z.mul_add_distr_l, Z.mul_1_r, Z.pow_add_r by lia.
    set (K := 2 ^ (n * Z.of_nat (length ps))) in *. set (u := parts_num n rs) in *. set (v := parts_num n (map fst ps)) in *. set (w := parts_num n (map snd ps)) in *. set (ee := Z.b2z e) in *. set (dd := Z.b2z d) in *. clearbody K u v w ee dd.
    replace (num t + 2 ^ n * u - K * 2 ^ n * dd) with (num t + 2 ^ n * (u - K * dd)) by ring. rewrite Q. replace (num t) with (num a - num b - Z.b2z c + 2 ^ n * ee) by lia. ring.
Qed.
Lemma long_add_exact n : 1 <= n < 2 ^ 31 ->
  (forall one ps c, typed one n false -> tidy one -> num one = 1 -> (forall p, In p ps -> typed (fst p) n false /\ tidy (fst p) /\ typed (snd p) n false /\ tidy (snd p)) ->
     exists rs d, long_add one ps c = Ok (rs, d) /\ length rs = length ps /\ (forall r, In r rs -> typed r n false) /\
       parts_num n rs + 2 ^ (n * Z.of_nat (length ps)) * Z.b2z d = parts_num n (firsts ps) + parts_num n (seconds ps) + Z.b2z c) <-> full_width n.
Proof.
  intros Hn. split.
  - intros H. destruct (Z.eq_dec n 1) as [->|N1].
    + exfalso. assert (T1 : typed (bit0 true) 1 false) by (repeat split; vm_compute; congruence). destruct (H (bit0 true) [(bit0 true, bit0 true)] false T1 (Program4Proofs.one_tidy _ _ T1) eq_refl) as (rs & d & E & _ & _ & Q).
      { intros p [<-|[]]. cbn [fst snd]. pose proof (Program4Proofs.one_tidy _ _ T1). tauto. }
      vm_compute in E. injection E as <- <-. vm_compute in Q. discriminate.
    + pose proof (pow2_pos n ltac:(lia)) as Pn. assert (P4 : 4 <= 2 ^ n) by (change 4 with (2 ^ 2); apply Z.pow_le_mono_r; lia). pose proof (room_le n ltac:(lia)) as P. destruct (Z_le_gt_dec (n + 1) (room n)) as [C|C].
      * exfalso. assert (Pw : 2 * 2 ^ n <= 2 ^ room n). { replace (2 * 2 ^ n) with (2 ^ (n + 1)) by (rewrite Z.pow_add_r by lia; change (2 ^ 1) with 2; lia). apply Z.pow_le_mono_r; lia. }
        assert (T : forall z, 0 <= z < 2 ^ n -> typed (vec_of n false z) n false /\ tidy (vec_of n false z) /\ num (vec_of n false z) = z).
        { intros z Hz. split; [apply vec_of_typed; lia|]. split; [apply (tidy_u_iff _ n ltac:(lia) (vec_of_typed n false z ltac:(lia))); rewrite kept_stored, Z.mod_small by lia; exact Hz|]. rewrite vec_of_num, Z.mod_small by lia. reflexivity. }
        destruct (T 1 ltac:(lia)) as (T1 & D1 & E1). destruct (T (2 ^ n - 1) ltac:(lia)) as (T2 & D2 & E2).
        destruct (H _ [(vec_of n false (2 ^ n - 1), vec_of n false 1)] false T1 D1 E1) as (rs & d & E & _ & _ & Q). { intros p [<-|[]]. cbn [fst snd]. tauto. }
        cbn [long_add] in E. rewrite k_add in E by lia. cbn [bind] in E. rewrite Z.mod_small in E by lia. replace (2 ^ n - 1 + 1) with (2 ^ n) in E by lia.
        rewrite k_lt in E by lia. cbn [bind] in E. replace (2 ^ n <? 2 ^ n - 1) with false in E by lia. rewrite k_lt in E by lia. cbn [bind fst snd] in E. replace (2 ^ n <? 2 ^ n) with false in E by lia. injection E as <- <-.
        cbn [parts_num firsts seconds map fst snd length] in Q. rewrite E1, E2, vec_of_num, Z_mod_same_full in Q by lia. change (Z.b2z false) with 0 in Q. lia.
      * destruct (Z.eq_dec n 8); [unfold full_width; tauto|]. destruct (Z.eq_dec n 16); [unfold full_width; tauto|]. destruct (Z.eq_dec n 32); [unfold full_width; tauto|]. destruct (Z.eq_dec n 64); [unfold full_width; tauto|].
        destruct (Z.le_gt_cases 65 n) as [L|L].
        -- unfold full_width. right. right. right. right. split; [exact L|]. destruct (room_range n ltac:(lia)) as (R & _ & _ & S2). assert (E : n = capacity n) by (rewrite <- S2 by lia; lia). rewrite E. unfold capacity. rewrite Z.mul_comm. apply Z.mod_mul. lia.
        -- exfalso. destruct (room_range n ltac:(lia)) as (R & _ & S1 & _). destruct (S1 ltac:(lia)) as [Q _]. destruct (MachineProofs.storage_cases n ltac:(lia)) as (_ & _ & D & _). lia.
  - intros W one ps c O _ E T. apply (long_add_full n one W O E). intros p Hp. destruct (T p Hp) as (A & _ & B & _). split; assumption.
Qed.
