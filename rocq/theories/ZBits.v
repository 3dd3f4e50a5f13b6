(** Arithmetic lemmas: bits of integers, two's complement, C++ conversions. *)
From Coq Require Import ZArith List Bool Lia Zify ZifyBool.
From Verif Require Import Cpp.
Import ListNotations.
Open Scope Z_scope.
Ltac Zify.zify_post_hook ::= Z.div_mod_to_equations.

Lemma pow2_pos n : 0 <= n -> 0 < 2 ^ n.
Proof. intros; apply Z.pow_pos_nonneg; lia. Qed.

Lemma testbit_mod_pow2 a n p : 0 <= n -> Z.testbit (a mod 2 ^ n) p = (p <? n) && Z.testbit a p.
Proof.
  intros Hn. destruct (Z.ltb_spec p n).
  - destruct (Z.ltb_spec p 0).
    + rewrite !Z.testbit_neg_r by lia. reflexivity.
    + rewrite Z.mod_pow2_bits_low by lia. reflexivity.
  - rewrite Z.mod_pow2_bits_high by lia. reflexivity.
Qed.

Lemma testbit_small a n p : 0 <= a < 2 ^ n -> n <= p -> Z.testbit a p = false.
Proof.
  intros Ha Hp.
  destruct (Z.ltb_spec n 0).
  { rewrite Z.pow_neg_r in Ha by lia. lia. }
  rewrite <- (Z.mod_small a (2 ^ n)) by lia.
  apply Z.mod_pow2_bits_high. lia.
Qed.

Lemma bits_small a n : 0 <= n -> 0 <= a -> (forall p, n <= p -> Z.testbit a p = false) -> a < 2 ^ n.
Proof.
  intros Hn Ha H.
  assert (E : a mod 2 ^ n = a).
  { apply Z.bits_inj'. intros p Hp. rewrite testbit_mod_pow2 by lia.
    destruct (Z.ltb_spec p n); [reflexivity|]. cbn. symmetry. apply H. lia. }
  rewrite <- E. apply Z.mod_pos_bound. apply pow2_pos; lia.
Qed.

Lemma pow2_mono a b : 0 <= a <= b -> 2 ^ a <= 2 ^ b.
Proof. intros. apply Z.pow_le_mono_r; lia. Qed.

Lemma pow2_split a b : 0 <= a -> 0 <= b -> 2 ^ (a + b) = 2 ^ a * 2 ^ b.
Proof. intros. apply Z.pow_add_r; lia. Qed.

Lemma mod_mod_pow2 z a b : 0 <= a <= b -> (z mod 2 ^ b) mod 2 ^ a = z mod 2 ^ a.
Proof.
  intros. apply Z.bits_inj'. intros p Hp. rewrite !testbit_mod_pow2 by lia.
  destruct (Z.ltb_spec p a), (Z.ltb_spec p b); cbn; try reflexivity; lia.
Qed.

Lemma mod_eq_shift a b m k : 0 < m -> a = b + m * k -> a mod m = b mod m.
Proof. intros Hm ->. rewrite Z.mul_comm, Z_mod_plus_full. reflexivity. Qed.

Lemma swrap_range n z : 1 <= n -> - 2 ^ (n - 1) <= swrap n z < 2 ^ (n - 1).
Proof.
  intros Hn. unfold swrap.
  assert (2 ^ n = 2 * 2 ^ (n - 1)) by (rewrite <- Z.pow_succ_r by lia; f_equal; lia).
  assert (0 < 2 ^ (n - 1)) by (apply pow2_pos; lia).
  pose proof (Z.mod_pos_bound (z + 2 ^ (n - 1)) (2 ^ n)). lia.
Qed.

Lemma swrap_mod n z : 1 <= n -> swrap n z mod 2 ^ n = z mod 2 ^ n.
Proof.
  intros Hn. unfold swrap.
  assert (0 < 2 ^ n) by (apply pow2_pos; lia).
  rewrite Zminus_mod_idemp_l. f_equal. lia.
Qed.

Lemma swrap_mod_le n k z : 1 <= n -> 0 <= k <= n -> swrap n z mod 2 ^ k = z mod 2 ^ k.
Proof.
  intros Hn Hk. rewrite <- (mod_mod_pow2 (swrap n z) k n), swrap_mod, mod_mod_pow2 by lia. reflexivity.
Qed.

Lemma swrap_id n z : 1 <= n -> - 2 ^ (n - 1) <= z < 2 ^ (n - 1) -> swrap n z = z.
Proof.
  intros Hn Hz. unfold swrap.
  assert (2 ^ n = 2 * 2 ^ (n - 1)) by (rewrite <- Z.pow_succ_r by lia; f_equal; lia).
  rewrite Z.mod_small by lia. lia.
Qed.

Lemma iwidth_pos t : 1 <= iwidth t <= 64.
Proof. destruct t; cbn; lia. Qed.

Lemma conv_mod t z k : t <> TBool -> 0 <= k <= iwidth t -> conv t z mod 2 ^ k = z mod 2 ^ k.
Proof.
  intros Ht Hk. pose proof (iwidth_pos t).
  unfold conv. destruct t; try congruence; cbn [isigned];
    first [ apply swrap_mod_le; lia | apply mod_mod_pow2; lia ].
Qed.

Lemma conv_in_ity t z : in_ity t (conv t z) = true.
Proof.
  unfold in_ity, conv. pose proof (iwidth_pos t).
  destruct t; cbn [isigned]; try (destruct (z =? 0); reflexivity);
  match goal with
  | |- context [swrap ?n ?z] => pose proof (swrap_range n z ltac:(cbn; lia)); lia
  | |- context [?z mod ?m] => pose proof (Z.mod_pos_bound z m ltac:(cbn; lia)); lia
  end.
Qed.

Lemma conv_id t z : in_ity t z = true -> conv t z = z.
Proof.
  unfold in_ity, conv. destruct t; cbn [isigned]; intros H; try (apply swrap_id; cbn in *; lia);
    try (apply Z.mod_small; lia).
  cbn in H. destruct (Z.eqb_spec z 0); lia.
Qed.

Lemma in_ity_range t z : in_ity t z = true <->
  (if isigned t then - 2 ^ (iwidth t - 1) <= z < 2 ^ (iwidth t - 1) else 0 <= z < 2 ^ iwidth t).
Proof. unfold in_ity. destruct (isigned t); lia. Qed.

Lemma land_mod_pow2 a b n : 0 <= n -> Z.land a b mod 2 ^ n = Z.land (a mod 2 ^ n) (b mod 2 ^ n).
Proof.
  intros. apply Z.bits_inj'. intros p Hp.
  rewrite Z.land_spec, !testbit_mod_pow2, Z.land_spec by lia. destruct (p <? n); reflexivity.
Qed.
Lemma lor_mod_pow2 a b n : 0 <= n -> Z.lor a b mod 2 ^ n = Z.lor (a mod 2 ^ n) (b mod 2 ^ n).
Proof.
  intros. apply Z.bits_inj'. intros p Hp.
  rewrite Z.lor_spec, !testbit_mod_pow2, Z.lor_spec by lia. destruct (p <? n); reflexivity.
Qed.
Lemma lxor_mod_pow2 a b n : 0 <= n -> Z.lxor a b mod 2 ^ n = Z.lxor (a mod 2 ^ n) (b mod 2 ^ n).
Proof.
  intros. apply Z.bits_inj'. intros p Hp.
  rewrite Z.lxor_spec, !testbit_mod_pow2, Z.lxor_spec by lia. destruct (p <? n); reflexivity.
Qed.

Lemma testbit_ones n p : 0 <= n -> Z.testbit (2 ^ n - 1) p = (0 <=? p) && (p <? n).
Proof.
  intros Hn. replace (2 ^ n - 1) with (Z.ones n) by (rewrite Z.ones_equiv; lia).
  destruct (Z.leb_spec 0 p); cbn.
  - destruct (Z.ltb_spec p n); [apply Z.ones_spec_low | apply Z.ones_spec_high]; lia.
  - apply Z.testbit_neg_r; lia.
Qed.

Lemma shiftr_ones n k : 0 <= k <= n -> Z.shiftr (2 ^ n - 1) k = 2 ^ (n - k) - 1.
Proof.
  intros. apply Z.bits_inj'. intros p Hp.
  rewrite Z.shiftr_spec, !testbit_ones by lia.
  destruct (Z.leb_spec 0 (p + k)), (Z.leb_spec 0 p), (Z.ltb_spec (p + k) n), (Z.ltb_spec p (n - k));
    cbn; try reflexivity; lia.
Qed.

Lemma land_ones_mod a n : 0 <= n -> Z.land a (2 ^ n - 1) = a mod 2 ^ n.
Proof. intros. replace (2 ^ n - 1) with (Z.ones n) by (rewrite Z.ones_equiv; lia). apply Z.land_ones. lia. Qed.

(** [zrange] *)
Lemma zrange_empty a b : b <= a -> zrange a b = [].
Proof. intros. unfold zrange. replace (Z.to_nat (b - a)) with O by lia. reflexivity. Qed.

Lemma zrange_cons a b : a < b -> zrange a b = a :: zrange (a + 1) b.
Proof.
  intros. unfold zrange.
  replace (Z.to_nat (b - a)) with (S (Z.to_nat (b - (a + 1)))) by lia.
  cbn [seq map]. f_equal; [lia|].
  rewrite <- seq_shift, map_map. apply map_ext. intros; lia.
Qed.

Lemma zrange_snoc a b : a <= b -> zrange a (b + 1) = zrange a b ++ [b].
Proof.
  intros. unfold zrange.
  replace (Z.to_nat (b + 1 - a)) with (S (Z.to_nat (b - a))) by lia.
  rewrite seq_S, map_app. cbn. do 2 f_equal. lia.
Qed.

Lemma in_zrange a b i : In i (zrange a b) <-> a <= i < b.
Proof.
  unfold zrange. rewrite in_map_iff. split.
  - intros (k & <- & Hk). apply in_seq in Hk. lia.
  - intros Hi. exists (Z.to_nat (i - a)). split; [lia|]. apply in_seq. lia.
Qed.

Lemma zrange_length a b : length (zrange a b) = Z.to_nat (b - a).
Proof. unfold zrange. rewrite map_length, seq_length. reflexivity. Qed.

(** induction on a counting loop *)
Lemma zrange_fold_ind {B} (f : B -> Z -> B) (P : Z -> B -> Prop) a b x0 :
  a <= b -> P a x0 -> (forall i x, a <= i < b -> P i x -> P (i + 1) (f x i)) ->
  P b (fold_left f (zrange a b) x0).
Proof.
  intros Hab H0 Hs. revert H0 Hs. revert x0.
  remember (Z.to_nat (b - a)) as k eqn:Hk. revert a Hab Hk.
  induction k as [|k IH]; intros a Hab Hk x0 H0 Hs.
  - rewrite zrange_empty by lia. cbn. replace b with a by lia. exact H0.
  - rewrite zrange_cons by lia. cbn [fold_left]. apply IH; try lia.
    + apply Hs; [lia | exact H0].
    + intros; apply Hs; [lia | assumption].
Qed.

Lemma zrange_ofold_ind {B} (f : B -> Z -> outcome B) (P : Z -> B -> Prop) a b x0 :
  a <= b -> P a x0 ->
  (forall i x, a <= i < b -> P i x -> exists x', f x i = Ok x' /\ P (i + 1) x') ->
  exists x', ofold f (zrange a b) x0 = Ok x' /\ P b x'.
Proof.
  intros Hab H0 Hs. revert H0 Hs. revert x0.
  remember (Z.to_nat (b - a)) as k eqn:Hk. revert a Hab Hk.
  induction k as [|k IH]; intros a Hab Hk x0 H0 Hs.
  - rewrite zrange_empty by lia. cbn. exists x0. replace b with a by lia. auto.
  - rewrite zrange_cons by lia. cbn [ofold].
    destruct (Hs a x0 ltac:(lia) H0) as (x1 & E1 & H1). rewrite E1. cbn [bind].
    apply IH; try lia; [assumption|]. intros; apply Hs; [lia | assumption].
Qed.

(** division-aware [lia]; the plain one stays fast *)
Ltac Zify.zify_post_hook ::= idtac.
Ltac zlia := zify; Z.div_mod_to_equations; lia.
