(** What comparisons of results of any origin look at. *)
From Coq Require Import ZArith List Bool Lia Zify ZifyBool.
From Verif Require Import Cpp BigNum Bit Logic More Spec SpecExact SpecMachine SpecWide SpecIff SpecIff4 ZBits Words BigNumProofs BitProofs BitExt BitOps BitMain BitMain3 MachineProofs WideProofs WideProofs3 WideProofs4.
Import ListNotations.
Open Scope Z_scope.
Local Ltac Zify.zify_post_hook ::= idtac.

Lemma stored_range_u b : vec b -> bsgn b = false -> 0 <= stored b < 2 ^ (if bw b <=? 64 then 64 else capacity (bw b)).
Proof.
  intros V S1. destruct (vec_cases b V) as [(v & E & N & I & St)|(ws & E & N & I & St)]; rewrite St.
  - replace (bw b <=? 64) with true by lia. rewrite S1 in I. pose proof (in_values (bw b) false v ltac:(lia) I) as R. cbn iota in R. destruct (Z.eqb_spec (bw b) 1); [lia|]. destruct (storage_cases (bw b) ltac:(lia)) as (_ & _ & B & _). assert (2 ^ storage (bw b) <= 2 ^ 64) by (apply Z.pow_le_mono_r; lia). lia.
  - replace (bw b <=? 64) with false by lia. rewrite <- St. apply stored_range; [exact V|lia].
Qed.
Lemma same_type_compare a b n : 1 <= n -> typed a n false -> typed b n false ->
  bit_eq a b = Ok (stored a =? stored b) /\ bit_lt a b = Ok (stored a <? stored b) /\ bit_ge a b = Ok (stored b <=? stored a).
Proof.
  intros Hn Ta Tb. pose proof (typed_bw _ _ _ Hn Ta) as Wa. pose proof (typed_bw _ _ _ Hn Tb) as Wb. destruct Ta as (Va & _ & Sa), Tb as (Vb & _ & Sb).
  pose proof (stored_range_u a Va Sa) as Ra. pose proof (stored_range_u b Vb Sb) as Rb. rewrite Wa in Ra. rewrite Wb in Rb.
  rewrite eq_any, lt_any, ge_any by assumption. unfold any_equal, any_less, any_greater_equal, any_order, small, both_signed. rewrite Wa, Wb, Sa. cbn [andb]. destruct (Z.leb_spec n 64) as [N|N]; cbn [andb].
  - unfold equal_native, ordered, both_signed. rewrite Wa, Sa. cbn [andb]. rewrite !Z.mod_small by lia. split; [|split; [reflexivity|rewrite Z.geb_leb; reflexivity]]. f_equal. f_equal.
    destruct (vec_cases b Vb) as [(v & E & _ & I & St)|(ws & _ & X & _)]; [|lia]. rewrite St. rewrite Wb, Sb in I. apply store_in; [lia|exact I].
  - cbn zeta. rewrite Z.min_id. assert (K : forall z, skipn (Z.to_nat (words_in n)) (words_of n z) = []). { intros z. apply skipn_all2. unfold words_of. assert (X : forall k y, length (spread k y) = k) by (induction k; intros; cbn; [reflexivity|now rewrite IHk]). rewrite X. lia. }
    rewrite !K. change (64 * words_in n) with (capacity n). rewrite !Z.mod_small by assumption. cbn [blank forallb]. rewrite !andb_true_r. split; [reflexivity|].
    unfold wide_greater, wide_greater_equal, both_signed. rewrite Sa, Sb. cbn [andb]. split; [reflexivity|]. unfold any_equal, small, both_signed. rewrite Wa, Wb, Sa. replace (n <=? 64) with false by lia. cbn [andb]. rewrite Z.min_id, !K. change (64 * words_in n) with (capacity n). rewrite !Z.mod_small by assumption. cbn [blank forallb]. rewrite !andb_true_r. unfold wide_greater, both_signed. rewrite Sa. cbn [andb].
    f_equal. lia.
Qed.
Lemma compare_iff a b n : 1 <= n -> typed a n false -> typed b n false ->
  (bit_eq a b = Ok (num a =? num b) <-> num a <> num b \/ stored a = stored b) /\
  (bit_lt a b = Ok (num a <? num b) <-> (num a < num b <-> stored a < stored b)) /\
  (bit_ge a b = Ok (num b <=? num a) <-> (num a < num b <-> stored a < stored b)).
Proof.
  intros Hn Ta Tb. destruct (same_type_compare a b n Hn Ta Tb) as (-> & -> & ->). pose proof (typed_bw _ _ _ Hn Ta) as Wa. pose proof (typed_bw _ _ _ Hn Tb) as Wb.
  assert (Q : stored a = stored b -> num a = num b) by (intros E; unfold num; now rewrite E, Wa, Wb).
  split; [|split]; (split; [intros E; injection E as E; lia|intros E; f_equal; lia]).
Qed.
