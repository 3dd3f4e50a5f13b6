(** Lemmas about the reduction of Reduce.v. *)
From Coq Require Import ZArith List Bool Lia Zify ZifyBool.
From Verif Require Import Cpp BigNum BigObj Reduce Spec SpecBig SpecMem ZBits Words BigObjProofs BigObjProofs3.
Import ListNotations.
Open Scope Z_scope.
Local Ltac Zify.zify_post_hook ::= idtac.

Lemma ones_words ws : Forall (fun w => 0 <= w < 2 ^ 64) ws -> forall k, (k <= length ws)%nat ->
  forallb (fun v => v =? 2 ^ 64 - 1) (firstn k ws) = (words_num ws mod 2 ^ (64 * Z.of_nat k) =? 2 ^ (64 * Z.of_nat k) - 1).
Proof.
  induction 1 as [|w ws Hw _ IH]; intros [|k] Hk; cbn [firstn forallb length] in *; try (now rewrite Z.mod_1_r); [lia|].
  rewrite IH by lia. cbn [words_num]. replace (64 * Z.of_nat (S k)) with (64 + 64 * Z.of_nat k) by lia. rewrite Z.pow_add_r by lia. set (m := 2 ^ (64 * Z.of_nat k)). assert (Hm : 0 < m) by (apply Z.pow_pos_nonneg; lia).
  set (v := words_num ws). assert (E : (w + 2 ^ 64 * v) mod (2 ^ 64 * m) = w + 2 ^ 64 * (v mod m)). { symmetry. apply Z.mod_unique with (v / m); [left|]; pose proof (Z.mod_pos_bound v m Hm); pose proof (Z.div_mod v m); nia. }
  rewrite E. pose proof (Z.mod_pos_bound v m Hm). destruct (Z.eqb_spec w (2 ^ 64 - 1)), (Z.eqb_spec (v mod m) (m - 1)); cbn [andb]; symmetry; [apply Z.eqb_eq|apply Z.eqb_neq..]; nia.
Qed.

Lemma one_range q : zrange q (q + 1) = [q]. Proof. unfold zrange. replace (q + 1 - q) with 1 by lia. change (Z.to_nat 1) with 1%nat. cbn [seq map]. f_equal. lia. Qed.
Theorem r_and_num x n s : is_num x n s -> exists b, num_r_and true x = Ok b /\ (b = true <-> n = 8 \/ (magn x mod 2 ^ lower n <> 2 ^ lower n - 1 /\ pos x ((n - 1) / 64) = true)).
Proof.
  intros (Hn & En & _ & Lw & F). unfold num_r_and, requires. cbn zeta. rewrite En.
  assert (Sn : nwords n = (n - 1) / 64 + 1). { unfold nwords. pose proof (Z.div_mod n 64 ltac:(lia)). pose proof (Z.mod_pos_bound n 64 ltac:(lia)). destruct (Z.eqb_spec (n mod 64) 0) as [E|E]; [|f_equal; apply Z.div_unique with (n mod 64 - 1); lia]. assert (n / 64 - 1 = (n - 1) / 64) by (apply Z.div_unique with 63; lia). lia. }
  assert (L2 : (n + 63) / 64 = (n - 1) / 64 + 1) by (replace (n + 63) with (n - 1 + 1 * 64) by lia; now rewrite Z.div_add by lia).
  assert (Q : 0 <= (n - 1) / 64) by (apply Z.div_pos; lia). rewrite Sn. replace ((n - 1) / 64 + 1 - 1) with ((n - 1) / 64) by lia.
  rewrite (ones_words _ F) by lia. rewrite Z2Nat.id by exact Q. fold (lower n). fold (raw x).
  assert (Ll : 0 <= lower n < n) by (unfold lower; pose proof (Z.div_mod (n - 1) 64 ltac:(lia)); pose proof (Z.mod_pos_bound (n - 1) 64 ltac:(lia)); lia).
  assert (ML : raw x mod 2 ^ lower n = magn x mod 2 ^ lower n). { unfold magn. rewrite En. replace (2 ^ n) with (2 ^ lower n * 2 ^ (n - lower n)) by (rewrite <- Z.pow_add_r by lia; f_equal; lia). rewrite Z.rem_mul_r by (pose proof (Z.pow_pos_nonneg 2 (lower n)); pose proof (Z.pow_pos_nonneg 2 (n - lower n)); lia). rewrite (Z.mul_comm (2 ^ lower n) (_ mod _)), Z.mod_add by (pose proof (Z.pow_pos_nonneg 2 (lower n)); lia). now rewrite Z.mod_mod by (pose proof (Z.pow_pos_nonneg 2 (lower n)); lia). }
  rewrite ML. rewrite one_range. cbn [forallb]. rewrite andb_true_r.
  assert (Qn : (n - 1) / 64 < n) by (pose proof (Z.div_mod (n - 1) 64 ltac:(lia)); pose proof (Z.mod_pos_bound (n - 1) 64 ltac:(lia)); lia).
  assert (G : bn_get n (n_ws x) ((n - 1) / 64) = pos x ((n - 1) / 64)). { rewrite bn_get_spec by (exact F || exact Q). replace ((n - 1) / 64 <? n) with true by lia. unfold pos, magn. rewrite En, Z.mod_pow2_bits_low by lia. reflexivity. }
  destruct (Z.eqb_spec (((n - 1) / 64 + 1) * 8) n) as [E8|E8].
  - assert (N8 : n = 8). { pose proof (Z.div_mod (n - 1) 64 ltac:(lia)). pose proof (Z.mod_pos_bound (n - 1) 64 ltac:(lia)). lia. } rewrite N8. eexists. split; [reflexivity|]. split; [auto|]. intros _. change (lower 8) with 0. now rewrite Z.mod_1_r.
  - assert (N8 : n <> 8) by (intros ->; apply E8; reflexivity). destruct (Z.eqb_spec (magn x mod 2 ^ lower n) (2 ^ lower n - 1)) as [A|A].
    + exists false. split; [reflexivity|]. split; [discriminate|]. intros [C|[C _]]; contradiction.
    + rewrite G. eexists. split; [reflexivity|]. split; [intros ->; right; auto|]. intros [C|[_ C]]; [contradiction|exact C].
Qed.

Theorem r_and_exact x n s : is_num x n s ->
  (exists b, num_r_and true x = Ok b /\ (b = true <-> magn x = 2 ^ n - 1)) <->
  if n =? 8 then magn x = 255 else magn x <> 2 ^ n - 1 /\ (magn x mod 2 ^ lower n = 2 ^ lower n - 1 \/ pos x ((n - 1) / 64) = false).
Proof.
  intros H. assert (Hn := proj1 H). destruct (r_and_num x n s H) as (b & E & B). rewrite E.
  assert (R : (exists b0, Ok b = Ok b0 /\ (b0 = true <-> magn x = 2 ^ n - 1)) <-> (b = true <-> magn x = 2 ^ n - 1)) by (split; [intros (b0 & Q & X); injection Q as <-; exact X|intros X; exists b; auto]). rewrite R, B.
  destruct (Z.eqb_spec n 8) as [-> | N]. { change (2 ^ 8 - 1) with 255. intuition. }
  assert (Ll : 0 <= lower n < n) by (unfold lower; pose proof (Z.div_mod (n - 1) 64 ltac:(lia)); pose proof (Z.mod_pos_bound (n - 1) 64 ltac:(lia)); pose proof (Z.div_pos (n - 1) 64); lia).
  assert (A : magn x = 2 ^ n - 1 -> magn x mod 2 ^ lower n = 2 ^ lower n - 1). { intros ->. symmetry. apply Z.mod_unique with (2 ^ (n - lower n) - 1). { left. pose proof (Z.pow_pos_nonneg 2 (lower n)); lia. } replace (2 ^ n) with (2 ^ lower n * 2 ^ (n - lower n)) by (rewrite <- Z.pow_add_r by lia; f_equal; lia). lia. }
  destruct (Z.eq_dec (magn x mod 2 ^ lower n) (2 ^ lower n - 1)) as [C|C].
  - split; [|intros [F _]; split; [intros [?|[? _]]; contradiction|contradiction]]. intros X. split; [|auto]. intros F. apply X in F. destruct F as [?|[? _]]; contradiction.
  - assert (M : magn x <> 2 ^ n - 1) by tauto. destruct (pos x ((n - 1) / 64)); intuition congruence.
Qed.
Lemma r_and_counter : (exists x, is_num x 128 false /\ inwidth x /\ magn x = 2 ^ 128 - 1 /\ num_r_and true x = Ok false) /\
  (exists x, is_num x 128 false /\ inwidth x /\ magn x = 2 /\ num_r_and true x = Ok true) /\ (exists x, is_num x 8 false /\ inwidth x /\ magn x = 0 /\ num_r_and true x = Ok true).
Proof.
  split; [exists (mkNum 128 false [2 ^ 64 - 1; 2 ^ 64 - 1]); cnum|]. split; [exists (mkNum 128 false [2; 0]); cnum|exists (mkNum 8 false [0]); cnum].
Qed.
