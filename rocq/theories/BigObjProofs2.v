(** Proofs about [big_num] objects, second part: shifts, comparisons, arithmetic. *)
From Coq Require Import ZArith List Bool Lia Zify ZifyBool.
From Verif Require Import Cpp BigNum Util Spec ZBits Words BigNumProofs BigArith BitCmp BitShift BigObj SpecBig BigObjProofs.
Import ListNotations.
Open Scope Z_scope.
Ltac Zify.zify_post_hook ::= idtac.

(** * Shifts *)
Lemma shr_num x n s k : is_num x n s -> 0 <= k ->
  is_num (num_shr x k) n s /\ inwidth (num_shr x k) /\ magn (num_shr x k) = magn x / 2 ^ k.
Proof.
  intros H Hk. unnum H. destruct (bn_shr_spec n (n_ws x) k ltac:(lia) Hk W) as (W1 & Q). unfold num_shr. rewrite E, G.
  assert (J : is_num (mkNum n s (bn_shr n (n_ws x) k)) n s) by (apply is_num_mk; [lia|exact W1]). split; [exact J|].
  pose proof (magn_range x n s H) as R. unfold magn in R. rewrite E in R. unfold raw in R.
  assert (C : inwidth (mkNum n s (bn_shr n (n_ws x) k))).
  { unfold inwidth, raw. cbn [n_ws n_size]. rewrite Q. pose proof (pow2_pos k Hk). apply Z.div_lt_upper_bound; nia. }
  split; [exact C|]. rewrite (clean_magn _ _ _ J C). unfold raw. cbn [n_ws]. rewrite Q. unfold magn. now rewrite E.
Qed.
Lemma shl_num x n s k : is_num x n s -> 0 <= k ->
  is_num (num_shl x k) n s /\ inwidth (num_shl x k) /\ magn (num_shl x k) = (magn x * 2 ^ k) mod 2 ^ n.
Proof.
  intros H Hk. unnum H. destruct (bn_shl_spec n (n_ws x) k ltac:(lia) Hk W) as (W1 & Q). unfold num_shl. rewrite E, G.
  assert (J : is_num (mkNum n s (bn_shl n (n_ws x) k)) n s) by (apply is_num_mk; [lia|exact W1]). split; [exact J|].
  pose proof (pow2_pos n ltac:(lia)).
  assert (C : inwidth (mkNum n s (bn_shl n (n_ws x) k))) by (unfold inwidth, raw; cbn [n_ws n_size]; rewrite Q; apply Z.mod_pos_bound; lia).
  split; [exact C|]. rewrite (clean_magn _ _ _ J C). unfold raw. cbn [n_ws]. rewrite Q. unfold magn. rewrite E. symmetry. apply Z.mul_mod_idemp_l. lia.
Qed.
Lemma shr_n_num x k n s m t : is_num x n s -> is_num k m t -> inwidth k ->
  is_num (num_shr_n x k) n (s && t) /\ inwidth (num_shr_n x k) /\ magn (num_shr_n x k) = magn x / 2 ^ magn k.
Proof.
  intros H K Ck. unnum H. unnum K. rewrite (clean_magn _ _ _ K Ck). pose proof (raw_range _ _ _ K) as Rk. unfold raw in Rk |- *.
  destruct (bn_shr_big_spec n (n_ws x) (n_ws k) ltac:(lia) (proj1 W0) W) as (W1 & Q). unfold num_shr_n. rewrite E, G, G0.
  assert (J : is_num (mkNum n (s && t) (bn_shr_big n (n_ws x) (n_ws k))) n (s && t)) by (apply is_num_mk; [lia|exact W1]). split; [exact J|].
  pose proof (magn_range x n s H) as R. unfold magn in R. rewrite E in R. unfold raw in R.
  assert (C : inwidth (mkNum n (s && t) (bn_shr_big n (n_ws x) (n_ws k)))).
  { unfold inwidth, raw. cbn [n_ws n_size]. rewrite Q. pose proof (pow2_pos (words_num (n_ws k)) ltac:(lia)). apply Z.div_lt_upper_bound; nia. }
  split; [exact C|]. rewrite (clean_magn _ _ _ J C). unfold raw. cbn [n_ws]. rewrite Q. unfold magn. now rewrite E.
Qed.
Lemma shl_n_num x k n s m t : is_num x n s -> is_num k m t -> inwidth k ->
  is_num (num_shl_n x k) n (s && t) /\ inwidth (num_shl_n x k) /\ magn (num_shl_n x k) = (magn x * 2 ^ magn k) mod 2 ^ n.
Proof.
  intros H K Ck. unnum H. unnum K. rewrite (clean_magn _ _ _ K Ck). unfold raw.
  destruct (bn_shl_big_spec n (n_ws x) (n_ws k) ltac:(lia) (proj1 W0) W) as (W1 & Q). unfold num_shl_n. rewrite E, G, G0.
  assert (J : is_num (mkNum n (s && t) (bn_shl_big n (n_ws x) (n_ws k))) n (s && t)) by (apply is_num_mk; [lia|exact W1]). split; [exact J|].
  pose proof (pow2_pos n ltac:(lia)).
  assert (C : inwidth (mkNum n (s && t) (bn_shl_big n (n_ws x) (n_ws k)))) by (unfold inwidth, raw; cbn [n_ws n_size]; rewrite Q; apply Z.mod_pos_bound; lia).
  split; [exact C|]. rewrite (clean_magn _ _ _ J C). unfold raw. cbn [n_ws]. rewrite Q. unfold magn. rewrite E. symmetry. apply Z.mul_mod_idemp_l. lia.
Qed.

Lemma twos_bit n z q : 1 <= n -> 0 <= z < 2 ^ n -> 0 <= q -> Z.testbit (twos n z) q = Z.testbit z (Z.min q (n - 1)).
Proof.
  intros Hn Hz Hq. pose proof (twos_range n z Hn Hz) as TR. destruct (Z.lt_ge_cases q n).
  - replace (Z.min q (n - 1)) with q by lia. rewrite <- (Z.mod_pow2_bits_low (twos n z) n q), <- (Z.mod_pow2_bits_low z n q) by lia. now rewrite twos_mod by lia.
  - replace (Z.min q (n - 1)) with (n - 1) by lia. unfold twos in *. destruct (Z.testbit z (n - 1)) eqn:T.
    + apply Z.bits_above_log2_neg; [lia|]. destruct (Z.eq_dec (z - 2 ^ n) (-1)) as [->|].
      * cbn. lia.
      * assert (Z.log2 (Z.pred (- (z - 2 ^ n))) < n - 1); [|lia]. apply Z.log2_lt_pow2; lia.
    + apply testbit_small with n; lia.
Qed.

Lemma ival_bit x n q : is_num x n true -> 0 <= q -> Z.testbit (ival x) q = pos x (Z.min q (n - 1)).
Proof.
  intros H Hq. pose proof (magn_range _ _ _ H). unnum H. unfold ival, pos. rewrite G, E. apply twos_bit; lia.
Qed.

Lemma ashr_num x n k : is_num x n true -> 0 <= k ->
  is_num (num_ashr x k) n true /\
  forall p, 0 <= p < n -> pos (num_ashr x k) p = (negb ((p =? n - 1 - k) && (k <? n))) && Z.testbit (ival x / 2 ^ k) p.
Proof.
  intros H Hk. unnum H. destruct (bn_ashr_signed n (n_ws x) k ltac:(lia) Hk W) as (W1 & Q). unfold num_ashr. rewrite E, G.
  assert (J : is_num (mkNum n true (bn_ashr n true (n_ws x) k)) n true) by (apply is_num_mk; [lia|exact W1]). split; [exact J|].
  intros p Hp. rewrite (pos_in _ _ _ _ J Hp). unfold raw at 1. cbn [n_ws]. rewrite Q by lia. rewrite Z.div_pow2_bits by lia. rewrite (ival_bit x n) by (auto; lia).
  replace (p <? n) with true by lia. cbn [andb]. destruct (Z.ltb_spec p (n - 1 - k)).
  - replace (Z.min (p + k) (n - 1)) with (p + k) by lia. rewrite (pos_in x n true) by (auto; lia). replace (p =? n - 1 - k) with false by lia. reflexivity.
  - replace (Z.min (p + k) (n - 1)) with (n - 1) by lia. rewrite (pos_in x n true) by (auto; lia). reflexivity.
Qed.

(** right where the result is the mathematical quotient *)
Lemma ashr_right x n k : is_num x n true -> 0 <= k -> 0 <= ival x \/ n <= k ->
  magn (num_ashr x k) = (ival x / 2 ^ k) mod 2 ^ n.
Proof.
  intros H Hk D. destruct (ashr_num x n k H Hk) as (J & B). pose proof H as (? & _). apply Z.bits_inj'. intros p Hp.
  change (pos (num_ashr x k) p = Z.testbit ((ival x / 2 ^ k) mod 2 ^ n) p). rewrite testbit_mod_pow2 by lia. destruct (Z.ltb_spec p n); cbn [andb].
  - rewrite B by lia. destruct (Z.eqb_spec p (n - 1 - k)) as [P|P]; cbn [andb negb]; [|reflexivity]. destruct (Z.ltb_spec k n); cbn [negb andb]; [|reflexivity].
    destruct D; [|lia]. rewrite Z.div_pow2_bits by lia. rewrite (ival_bit x n) by (auto; lia). replace (Z.min (p + k) (n - 1)) with (n - 1) by lia.
    pose proof (magn_range _ _ _ H). unnum H. unfold ival in *. rewrite G, E in *. pose proof (twos_sign n (magn x) ltac:(lia) ltac:(lia)) as TS. unfold pos. rewrite <- TS. lia.
  - now apply (pos_out _ n true).
Qed.

Lemma ashr_n_num x k n s m t : is_num x n s -> is_num k m t -> inwidth k ->
  is_num (num_ashr_n x k) n (s && t) /\ magn (num_ashr_n x k) = magn (num_ashr x (magn k)).
Proof.
  intros H K Ck. pose proof (raw_range _ _ _ K) as Rk. unnum H. unnum K. rewrite (clean_magn _ _ _ K Ck) in *. unfold raw in Rk |- *.
  unfold num_ashr_n, bn_ashr_big. rewrite E, G, G0.
  destruct (bn_amount_high (n_ws k)) eqn:A.
  - apply bn_amount_high_spec in A; [|apply W0]. destruct s.
    + assert (WW : wfn n (if bn_negative n (n_ws x) then bn_mask n else bn_zero n)) by (destruct (bn_negative n (n_ws x)); [apply bn_mask_spec; lia|apply bn_zero_wfn; lia]).
      split; [apply is_num_mk; [lia|exact WW]|]. unfold num_ashr, bn_ashr. rewrite E, G, (proj2 (Z.ltb_lt (n - 1) (words_num (n_ws k)))) by lia.
      reflexivity.
    + split; [apply is_num_mk; [lia|apply bn_zero_wfn; lia]|]. unfold num_ashr, bn_ashr, bn_shr. rewrite E, G, (proj2 (Z.ltb_lt n (words_num (n_ws k)))) by lia. reflexivity.
  - apply bn_amount_low in A; [|apply W0]. rewrite <- A. split.
    + apply is_num_mk; [lia|]. destruct s; [apply bn_ashr_signed; auto; lia|]. unfold bn_ashr. apply bn_shr_spec; auto; lia.
    + unfold num_ashr. rewrite E, G. reflexivity.
Qed.
Lemma ashr_unsigned x n k : is_num x n false -> num_ashr x k = num_shr x k.
Proof. intros H. unnum H. unfold num_ashr, num_shr, bn_ashr. now rewrite G. Qed.
Lemma ashr_counter : exists x, is_num x 128 true /\ inwidth x /\ ival x = -4 /\ ival (num_ashr x 0) <> -4 /\ ival (num_ashr x 1) <> -2.
Proof. exists (mkNum 128 true [u64max - 3; u64max]). cnum. Qed.

(** * Comparisons *)
Lemma excess_vis z n : 0 <= n -> z < 2 ^ (64 * nwords n) -> 0 <= z -> excess z n = 0.
Proof. intros. unfold excess. apply Z.div_small. lia. Qed.

Lemma eq_num x y n s m t : is_num x n s -> is_num y m t -> inwidth x -> inwidth y -> s && t = false ->
  ((n + 63) / 64 = (m + 63) / 64 \/ visible (magn x / 2 ^ (64 * ((m + 63) / 64))) /\ visible (magn y / 2 ^ (64 * ((n + 63) / 64)))) ->
  num_eq x y = Ok (magn x =? magn y) /\ num_ne x y = Ok (negb (magn x =? magn y)).
Proof.
  intros H K Cx Cy S V. rewrite (clean_magn _ _ _ H Cx), (clean_magn _ _ _ K Cy) in *. unnum H. unnum K.
  assert (Q : num_eq x y = Ok (raw x =? raw y)).
  { unfold num_eq. rewrite E, E0, G, G0. apply bn_eq_u; auto; try lia. unfold excess. rewrite !nwords_up. exact V. }
  unfold num_ne. rewrite Q. auto.
Qed.
Lemma eq_complete x y n s m t : is_num x n s -> is_num y m t -> inwidth x -> inwidth y -> s && t = false ->
  exists e, num_eq x y = Ok e /\ (magn x = magn y -> e = true).
Proof.
  intros H K Cx Cy S. rewrite (clean_magn _ _ _ H Cx), (clean_magn _ _ _ K Cy) in *. unnum H. unnum K.
  unfold num_eq. rewrite E, E0, G, G0. apply bn_eq_complete; auto; lia.
Qed.
Lemma eq_signed_bad x y n m : is_num x n true -> is_num y m true -> m <= n ->
  num_eq x y = IllFormed /\ num_ne x y = IllFormed /\ num_ge x y = IllFormed /\ num_le y x = IllFormed.
Proof.
  intros H K L. unnum H. unnum K. assert (Q : num_eq x y = IllFormed).
  { unfold num_eq, bn_eq. rewrite E, E0, G, G0. cbn [andb]. now rewrite (proj2 (Z.ltb_ge n m)) by lia. }
  split; [exact Q|]. split; [unfold num_ne; now rewrite Q|]. unfold num_le, num_ge, bn_ge. unfold num_eq in Q. rewrite Q. auto.
Qed.
Lemma eq_signed x y n m : is_num x n true -> is_num y m true -> n < m -> inwidth x -> inwidth y -> ival x < 0 ->
  num_eq x y = Ok (ival x =? ival y).
Proof.
  intros H K L Cx Cy Neg. pose proof (magn_range _ _ _ H) as Rx. pose proof (magn_range _ _ _ K) as Ry. unnum H. unnum K.
  destruct (widen_num x n true m true H ltac:(lia) ltac:(auto)) as (l & El & Wl & Ql & Cl & _). { right. auto. }
  unfold num_eq, bn_eq. rewrite E, E0, G, G0. cbn [andb]. rewrite (proj2 (Z.ltb_lt n m)) by lia. rewrite El. cbn [bind].
  rewrite words_eqb_same; [|apply Wl|apply W0|destruct Wl, W0; congruence]. f_equal. pose proof (words_num_nonneg l (proj1 Wl)).
  rewrite Z.mod_small in Ql by (split; [lia|apply Cl; exact Cx]). rewrite Ql. fold (raw y). rewrite <- (clean_magn _ _ _ K Cy).
  unfold oper. unfold ival in *. rewrite G, G0, E, E0 in *. pose proof (twos_range n (magn x) ltac:(lia) Rx) as TX. pose proof (twos_range m (magn y) ltac:(lia) Ry) as TY.
  pose proof (pow2_mono (n - 1) (m - 1) ltac:(lia)). apply eq_true_iff_eq. rewrite !Z.eqb_eq. split.
  - intros Q. assert (QQ : twos n (magn x) mod 2 ^ m = twos m (magn y) mod 2 ^ m) by (rewrite twos_mod, Q, Z.mod_small by lia; lia).
    assert (P : 2 ^ m = 2 * 2 ^ (m - 1)) by (rewrite <- Z.pow_succ_r by lia; f_equal; lia).
    destruct (Z.lt_ge_cases (twos m (magn y)) 0).
    + rewrite <- (Z.mod_add (twos n _) 1), <- (Z.mod_add (twos m _) 1) in QQ by lia. rewrite !Z.mod_small in QQ by lia. lia.
    + rewrite <- (Z.mod_add (twos n _) 1) in QQ by lia. rewrite !Z.mod_small in QQ by lia. lia.
  - intros Q. rewrite Q, twos_mod, Z.mod_small by lia. reflexivity.
Qed.
Lemma eq_signed_counter : exists x y, is_num x 70 true /\ is_num y 128 true /\ inwidth x /\ inwidth y /\ ival x = 1 /\ ival y = 1 /\ num_eq x y = Ok false.
Proof. exists (mkNum 70 true [1; 0]), (mkNum 128 true [1; 0]). cnum. Qed.
Lemma eq_unsigned_counter : exists x y, is_num x 128 false /\ is_num y 64 false /\ inwidth x /\ inwidth y /\ magn x <> magn y /\ num_eq x y = Ok true.
Proof. exists (mkNum 128 false [1; 2 ^ 32]), (mkNum 64 false [1]). cnum. Qed.

Lemma gt_num x y n s m t : is_num x n s -> is_num y m t -> inwidth x -> inwidth y -> s && t = false ->
  num_gt x y = Ok (magn y <? magn x) /\ num_lt x y = Ok (magn x <? magn y).
Proof.
  intros H K Cx Cy S. rewrite (clean_magn _ _ _ H Cx), (clean_magn _ _ _ K Cy). unnum H. unnum K.
  unfold num_lt, num_gt. rewrite E, E0, G, G0. split; apply bn_gt_u; auto. now rewrite andb_comm.
Qed.
Lemma ge_num x y n s m t : is_num x n s -> is_num y m t -> inwidth x -> inwidth y -> s && t = false ->
  ((n + 63) / 64 = (m + 63) / 64 \/ visible (magn x / 2 ^ (64 * ((m + 63) / 64))) /\ visible (magn y / 2 ^ (64 * ((n + 63) / 64)))) ->
  num_ge x y = Ok (magn y <=? magn x) /\ num_le x y = Ok (magn x <=? magn y).
Proof.
  assert (Half : forall x y n s m t, is_num x n s -> is_num y m t -> inwidth x -> inwidth y -> s && t = false ->
  ((n + 63) / 64 = (m + 63) / 64 \/ visible (magn x / 2 ^ (64 * ((m + 63) / 64))) /\ visible (magn y / 2 ^ (64 * ((n + 63) / 64)))) ->
  num_ge x y = Ok (magn y <=? magn x)).
  { clear. intros x y n s m t H K Cx Cy S V. destruct (eq_num x y n s m t H K Cx Cy S V) as [Q _]. destruct (gt_num x y n s m t H K Cx Cy S) as [P _].
    unfold num_ge, bn_ge. unfold num_eq in Q. unfold num_gt in P. rewrite Q, P. cbn [bind].
    destruct (Z.ltb_spec (magn y) (magn x)).
    - f_equal. symmetry. apply Z.leb_le. lia.
    - f_equal. apply eq_true_iff_eq. rewrite Z.eqb_eq, Z.leb_le. lia. }
  intros H K Cx Cy S V. split; [now apply (Half x y n s m t)|]. apply (Half y x m t n s); auto; [now rewrite andb_comm|]. destruct V as [V|[V1 V2]]; auto.
Qed.
Lemma gt_signed x y n m : is_num x n true -> is_num y m true -> inwidth x -> inwidth y ->
  0 <= ival x \/ 0 <= ival y \/ n = m /\ ival x <> - 2 ^ (n - 1) /\ ival y <> - 2 ^ (n - 1) ->
  num_gt x y = Ok (ival y <? ival x) /\ num_lt y x = Ok (ival y <? ival x).
Proof.
  intros H K Cx Cy D. pose proof (magn_range _ _ _ H) as Rx. pose proof (magn_range _ _ _ K) as Ry. unnum H. unnum K. unfold num_lt, num_gt.
  unfold ival in *. rewrite G, G0, E, E0 in *. rewrite (clean_magn _ _ _ H Cx), (clean_magn _ _ _ K Cy) in *. unfold raw in *.
  split; apply bn_gt_signed; auto; try lia; destruct D as [?|[?|(-> & ? & ?)]]; auto.
Qed.
Lemma gt_signed_counter : (exists x, is_num x 70 true /\ inwidth x /\ num_gt x x = Fuel /\ num_lt x x = Fuel) /\
  (exists x y, is_num x 70 true /\ is_num y 128 true /\ inwidth x /\ inwidth y /\ ival x = -1 /\ ival y = -2 /\ num_gt x y = Ok false).
Proof.
  split.
  - exists (mkNum 70 true [0; 32]). cnum.
  - exists (mkNum 70 true [u64max; 63]), (mkNum 128 true [u64max - 1; u64max]). cnum.
Qed.
Lemma eq_t_num x n s v : is_num x n s -> inwidth x -> 0 <= v < 2 ^ 64 -> num_eq_t x v = (magn x =? v).
Proof. intros H C Hv. rewrite (clean_magn _ _ _ H C). unnum H. apply (bn_eq_native_spec n); auto. lia. Qed.

(** * Arithmetic *)
Lemma modM_add a b x y M : 0 < M -> a mod M = x mod M -> b mod M = y mod M -> (a + b) mod M = (x + y) mod M.
Proof. intros HM A B. rewrite Z.add_mod, A, B, <- Z.add_mod by lia. reflexivity. Qed.
Lemma modM_sub a b x y M : 0 < M -> a mod M = x mod M -> b mod M = y mod M -> (a - b) mod M = (x - y) mod M.
Proof. intros HM A B. rewrite Zminus_mod, A, B, <- Zminus_mod by lia. reflexivity. Qed.

Lemma add_num x y n s m t : is_num x n s -> is_num y m t -> widens x (Z.max n m) (s && t) -> widens y (Z.max n m) (s && t) ->
  exists r, num_add x y = Ok r /\ is_num r (Z.max n m) (s && t) /\
    magn r = (oper x (s && t) + oper y (s && t)) mod 2 ^ Z.max n m.
Proof.
  intros H K Wx Wy. pose proof H as (? & _). pose proof K as (? & _). apply binop_num; auto. intros a b Wa Wb Qa Qb _ _.
  destruct (bn_add_spec (Z.max n m) a b ltac:(mb) Wa Wb) as (Wz & Qz). exists (bn_add a b). split; [reflexivity|]. split; [exact Wz|].
  rewrite Qz, mod_cap by mb. apply modM_add; auto. apply pow2_pos. mb.
Qed.
Lemma sub_num x y n s m t : is_num x n s -> is_num y m t -> widens x (Z.max n m) (s && t) -> widens y (Z.max n m) (s && t) ->
  exists r, num_sub x y = Ok r /\ is_num r (Z.max n m) (s && t) /\
    magn r = (oper x (s && t) - oper y (s && t)) mod 2 ^ Z.max n m.
Proof.
  intros H K Wx Wy. pose proof H as (? & _). pose proof K as (? & _). apply binop_num; auto. intros a b Wa Wb Qa Qb _ _.
  destruct (bn_sub_spec (Z.max n m) a b ltac:(mb) Wa Wb) as (Wz & Qz). exists (bn_sub (Z.max n m) a b). split; [reflexivity|]. split; [exact Wz|].
  rewrite Qz, mod_cap by mb. apply modM_sub; auto. apply pow2_pos. mb.
Qed.
Lemma negate_num x n s : is_num x n s -> is_num (num_negate x) n s /\ magn (num_negate x) = (- magn x) mod 2 ^ n.
Proof.
  intros H. unnum H. destruct (bn_negate_spec n (n_ws x) ltac:(lia) W) as (W1 & Q). unfold num_negate. rewrite E, G.
  split; [apply is_num_mk; [lia|exact W1]|]. unfold magn, raw. cbn [n_ws n_size]. rewrite Q, E, mod_cap by lia.
  pose proof (pow2_pos n ltac:(lia)). apply mod_eq_shift with (- (words_num (n_ws x) / 2 ^ n)); [lia|].
  rewrite (Z.div_mod (words_num (n_ws x)) (2 ^ n)) at 1 by lia. ring.
Qed.

Lemma groups_top z : 0 < z -> 1 <= groups z /\ 2 ^ (64 * (groups z - 1)) <= z < 2 ^ (64 * groups z).
Proof.
  intros Hz. unfold groups. rewrite (proj2 (Z.eqb_neq z 0)) by lia. pose proof (Z.log2_nonneg z). pose proof (Z.log2_spec z Hz) as [L U].
  pose proof (Z.div_mod (Z.log2 z) 64 ltac:(lia)). pose proof (Z.mod_pos_bound (Z.log2 z) 64 ltac:(lia)). pose proof (Z.div_pos (Z.log2 z) 64 ltac:(lia) ltac:(lia)).
  split; [lia|]. split.
  - apply Z.le_trans with (2 ^ Z.log2 z); [|exact L]. apply Z.pow_le_mono_r; lia.
  - apply Z.lt_le_trans with (2 ^ Z.succ (Z.log2 z)); [exact U|]. apply Z.pow_le_mono_r; lia.
Qed.
Lemma groups_nonneg z : 0 <= groups z.
Proof. unfold groups. destruct (Z.eqb_spec z 0); [lia|]. pose proof (Z.log2_nonneg z). pose proof (Z.div_pos (Z.log2 z) 64). lia. Qed.
Lemma groups_below ws : wf ws -> below ws (groups (words_num ws)).
Proof.
  intros W i Hi. pose proof (words_num_nonneg ws W). pose proof (groups_nonneg (words_num ws)). rewrite <- (words_num_word ws i W) by lia.
  destruct (Z.eq_dec (words_num ws) 0) as [Q|Ne]; [rewrite Q, Z.div_0_l; [reflexivity|apply Z.pow_nonzero; lia]|].
  destruct (groups_top (words_num ws) ltac:(lia)) as (A & B). rewrite Z.div_small; [reflexivity|]. split; [lia|].
  apply Z.lt_le_trans with (1 := proj2 B). apply Z.pow_le_mono_r; lia.
Qed.
Lemma groups_word ws : wf ws -> words_num ws <> 0 -> word ws (groups (words_num ws) - 1) <> 0 /\ 1 <= groups (words_num ws) <= wlen ws.
Proof.
  intros W Ne. pose proof (words_num_nonneg ws W). destruct (groups_top (words_num ws) ltac:(lia)) as (A & B). split.
  - rewrite <- (words_num_word ws) by (auto; lia). intros Q. set (k := groups (words_num ws)) in *.
    assert (P : 2 ^ (64 * k) = 2 ^ (64 * (k - 1)) * 2 ^ 64) by (rewrite <- Z.pow_add_r by lia; f_equal; lia).
    pose proof (pow2_pos (64 * (k - 1)) ltac:(lia)).
    assert (1 <= words_num ws / 2 ^ (64 * (k - 1)) < 2 ^ 64).
    { split; [apply Z.div_le_lower_bound; lia|apply Z.div_lt_upper_bound; nia]. }
    rewrite Z.mod_small in Q by lia. lia.
  - split; [exact A|]. pose proof (words_num_bound ws W). destruct (Z.le_gt_cases (groups (words_num ws)) (wlen ws)); [assumption|exfalso].
    assert (2 ^ (64 * wlen ws) <= 2 ^ (64 * (groups (words_num ws) - 1))); [|lia]. apply Z.pow_le_mono_r; [lia|]. lia.
Qed.

(** the multiplication loop writes out of bounds as soon as the top words do not fit *)
Lemma mul_step_or n a b i r j : 1 <= n -> 0 <= i -> 0 <= j -> wfn n r -> wf a -> wf b ->
  (exists r', bn_mul_step n a b i r j = Ok r' /\ wfn n r') \/ bn_mul_step n a b i r j = UB.
Proof.
  intros Hn Hi Hj Wr Wa Wb. unfold bn_mul_step. cbv zeta. destruct (word b j =? 0); [left; eauto|].
  pose proof (bn_zero_wfn n Hn) as [Wz Lz]. set (hi := u64 (Z.shiftr (u128 (word a i * word b j)) 64)). set (lo := u64 (Z.shiftr (u128 (Z.shiftl _ 64)) 64)).
  assert (P : forall k w r, 0 <= k -> 0 <= w < 2 ^ 64 -> wfn n r -> (exists r', (let! t := word_put (bn_zero n) k w in Ok (bn_add r t)) = Ok r' /\ wfn n r') \/ (let! t := word_put (bn_zero n) k w in Ok (bn_add r t)) = UB).
  { intros k w r0 Hk Hw W0. rewrite word_put_spec. destruct ((0 <=? k) && (k <? wlen (bn_zero n))); [|right; reflexivity]. left. cbn [bind].
    eexists. split; [reflexivity|]. apply bn_add_spec; auto. split; [now apply word_set_wf|]. now rewrite word_set_len. }
  assert (Hlo : 0 <= lo < 2 ^ 64) by apply u64_range. assert (Hhi : 0 <= hi < 2 ^ 64) by apply u64_range.
  destruct (i + j <? n).
  - destruct (P (i + j) lo r ltac:(lia) Hlo Wr) as [(r1 & E1 & W1)|E1]; rewrite E1; cbn [bind]; [|auto].
    destruct (i + j + 1 <? n); [|left; eauto]. apply P; auto. lia.
  - cbn [bind]. destruct (i + j + 1 <? n); [|left; eauto]. apply P; auto. lia.
Qed.
Lemma ofold_or {A B} (f : B -> A -> outcome B) (P : B -> Prop) l : forall b, P b ->
  (forall b a, P b -> In a l -> (exists b', f b a = Ok b' /\ P b') \/ f b a = UB) ->
  (exists b', ofold f l b = Ok b' /\ P b') \/ ofold f l b = UB.
Proof.
  induction l as [|a l IH]; intros b Pb F; cbn [ofold]; [left; eauto|].
  destruct (F b a Pb (or_introl eq_refl)) as [(b' & E & P')|E]; rewrite E; cbn [bind]; [|auto]. apply IH; auto. intros. apply F; auto. now right.
Qed.
Lemma ofold_ub {A B} (f : B -> A -> outcome B) (P : B -> Prop) l a0 : forall b, P b -> In a0 l ->
  (forall b a, P b -> In a l -> (exists b', f b a = Ok b' /\ P b') \/ f b a = UB) ->
  (forall b, P b -> f b a0 = UB) -> ofold f l b = UB.
Proof.
  induction l as [|a l IH]; intros b Pb I F U; cbn [ofold]; [destruct I|]. destruct I as [->|I]; [now rewrite U|].
  destruct (F b a Pb (or_introl eq_refl)) as [(b' & E & P')|E]; rewrite E; cbn [bind]; [|auto]. apply IH; auto. intros. apply F; auto. now right.
Qed.
Lemma bn_mul_overflow n a b : 65 <= n -> wfn n a -> wfn n b -> words_num a <> 0 -> words_num b <> 0 ->
  halves_ok (tl a) -> halves_ok (tl b) -> nwords n < groups (words_num a) + groups (words_num b) -> bn_mul n a b = UB.
Proof.
  intros Hn Wa Wb Na Nb Ha Hb L. pose proof (nwords_bounds n ltac:(lia)) as NB. assert (2 <= nwords n) by lia.
  destruct (groups_word a (proj1 Wa) Na) as (Ta & Ga). destruct (groups_word b (proj1 Wb) Nb) as (Tb & Gb).
  destruct Wa as [Wa La], Wb as [Wb Lb]. rewrite La in Ga. rewrite Lb in Gb.
  pose proof (words_num_nonneg a Wa). pose proof (words_num_nonneg b Wb).
  destruct (groups_top (words_num a) ltac:(lia)) as (_ & Ka). destruct (groups_top (words_num b) ltac:(lia)) as (_ & Kb).
  unfold bn_mul. rewrite !bn_fit_spec by auto.
  replace ((words_num a <? 2 ^ 64) && (words_num b <? 2 ^ 64)) with false.
  2:{ symmetry. apply andb_false_iff. destruct (Z.le_gt_cases (groups (words_num a)) 1), (Z.le_gt_cases (groups (words_num b)) 1); try lia; [right|left|left]; apply Z.ltb_ge;
      (apply Z.le_trans with (2 := proj1 Ka) || apply Z.le_trans with (2 := proj1 Kb)); apply Z.pow_le_mono_r; lia. }
  apply (ofold_ub _ (wfn n) _ (groups (words_num a) - 1)).
  - apply bn_zero_wfn. lia.
  - apply in_zrange. lia.
  - intros r i Wr I. apply in_zrange in I. destruct (word a i =? 0); [left; eauto|].
    apply (ofold_or _ (wfn n)); auto. intros r' j Wr' J. apply in_zrange in J. apply mul_step_or; auto; lia.
  - intros r Wr. rewrite (proj2 (Z.eqb_neq _ 0) Ta). apply (ofold_ub _ (wfn n) _ (groups (words_num b) - 1)); auto.
    + apply in_zrange. lia.
    + intros r' j Wr' J. apply in_zrange in J. apply mul_step_or; auto; lia.
    + intros r' [Wr' Lr']. apply bn_mul_step_ub; auto; lia.
Qed.

Lemma tl_quot ws : wf ws -> words_num (tl ws) = words_num ws / 2 ^ 64.
Proof.
  intros W. rewrite (words_num_tl ws). pose proof (word_range ws 0 W). rewrite Z.add_comm, Z.mul_comm, Z.div_add_l by lia. rewrite (Z.div_small (word ws 0)) by lia. lia.
Qed.
Lemma halves_tl ws : wf ws -> visible (words_num ws / 2 ^ 64) -> halves_ok (tl ws).
Proof. intros W V. apply halves_visible; [now apply wf_tl|]. now rewrite tl_quot. Qed.


Lemma mul_num x y n s m t : is_num x n s -> is_num y m t -> widens x (Z.max n m) (s && t) -> widens y (Z.max n m) (s && t) ->
  inwidth x -> inwidth y -> 65 <= Z.max n m ->
  visible (opnd x (Z.max n m) (s && t) / 2 ^ 64) -> visible (opnd y (Z.max n m) (s && t) / 2 ^ 64) ->
  let a := opnd x (Z.max n m) (s && t) in let b := opnd y (Z.max n m) (s && t) in
  (groups a + groups b <= (Z.max n m + 63) / 64 ->
   exists r, num_mul x y = Ok r /\ is_num r (Z.max n m) (s && t) /\ magn r = (oper x (s && t) * oper y (s && t)) mod 2 ^ Z.max n m) /\
  (a <> 0 -> b <> 0 -> (Z.max n m + 63) / 64 < groups a + groups b -> num_mul x y = UB).
Proof.
  intros H K Wx Wy Cx Cy M Va Vb a b. unfold opnd in *. rewrite <- nwords_up. pose proof H as (B1 & _). pose proof K as (B2 & _).
  destruct (widen2_num x y n s m t H K Wx Wy) as (l & r & El & Wl & Wr & Ql & Qr & Cl & Cr). specialize (Cl Cx). specialize (Cr Cy).
  pose proof (words_num_nonneg l (proj1 Wl)) as Pl. pose proof (words_num_nonneg r (proj1 Wr)) as Pr.
  assert (Ea : words_num l = a) by (unfold a; rewrite <- Ql; symmetry; apply Z.mod_small; split; assumption).
  assert (Eb : words_num r = b) by (unfold b; rewrite <- Qr; symmetry; apply Z.mod_small; split; assumption).
  assert (Hl : halves_ok (tl l)) by (apply halves_tl; [apply Wl|]; rewrite Ea; exact Va).
  assert (Hr : halves_ok (tl r)) by (apply halves_tl; [apply Wr|]; rewrite Eb; exact Vb). unnum H. unnum K.
  assert (Pm : 0 < 2 ^ Z.max n m) by (apply pow2_pos; mb).
  split.
  - intros GG. rewrite <- Ea, <- Eb in GG. destruct (bn_mul_spec (Z.max n m) l r _ _ M Wl Wr Hl Hr (groups_below l (proj1 Wl)) (groups_below r (proj1 Wr)) GG) as (z & Ez & Wz & Qz).
    exists (mkNum (Z.max n m) (s && t) z). split; [unfold num_mul, num_binop; rewrite El; cbn [bind]; rewrite E, E0, G, G0, Ez; reflexivity|].
    split; [apply is_num_mk; [mb|exact Wz]|]. unfold magn, raw. cbn [n_ws n_size]. rewrite Qz, mod_cap by mb.
    rewrite Z.mul_mod, Ql, Qr, <- Z.mul_mod by lia. reflexivity.
  - intros Na Nb GG. rewrite <- Ea, <- Eb in *. unfold num_mul, num_binop. rewrite El. cbn [bind]. rewrite E, E0.
    now rewrite bn_mul_overflow.
Qed.
Lemma mul_small_ub x y n s m t : is_num x n s -> is_num y m t -> Z.max n m <= 64 -> num_mul x y = UB.
Proof.
  intros H K M. unnum H. unnum K.
  destruct (bn_extend_spec n s (n_ws x) (Z.max n m) ltac:(lia) W) as (l & El & Wl & _).
  destruct (bn_extend_spec m t (n_ws y) (Z.max n m) ltac:(lia) W0) as (r & Er & Wr & _).
  unfold num_mul, num_binop, bn_widen2. rewrite E, E0, G, G0, El, Er. cbn [bind].
  assert (NW : nwords (Z.max n m) = 1). { rewrite nwords_up. assert (1 <= Z.max n m) by lia. assert (64 <= Z.max n m + 63 < 128) by lia. symmetry. apply Z.div_unique with (Z.max n m + 63 - 64); lia. }
  destruct Wl as [Wl Ll], Wr as [Wr Lr]. rewrite NW in *. unfold wlen in *. destruct l as [|l0 [|]]; cbn [length] in Ll; try lia. destruct r as [|r0 [|]]; cbn [length] in Lr; try lia.
  unfold bn_mul, bn_fit_in_64. cbn [tl]. replace (reduce_or [] =? 0) with true by reflexivity. cbn [andb]. unfold bn_zero. rewrite NW. reflexivity.
Qed.
