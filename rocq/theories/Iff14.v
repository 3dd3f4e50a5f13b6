(** Exactly when mixed-width bitwise operators and compound bitwise assignment are right. *)
From Coq Require Import ZArith List Bool Lia.
From Verif Require Exact.
From Verif Require Import Cpp BigNum Bit Logic More Spec SpecExact SpecMachine SpecWide SpecIff SpecIff2 BitExt BitOps ZBits Words BigNumProofs BitProofs BitCmp BitShift BitMain BitMain2 BitMain4 BitMain5 MachineProofs MachineProofs3 MachineProofs4 ReachProofs ReachProofs2 WideProofs WideProofs2 WideProofs3 WideProofs4 Iff2 Iff3 Iff4 Iff5 Iff6 Iff7 Iff8 Iff9 Iff10 Iff12 Iff13.
Import ListNotations.
Open Scope Z_scope.
Local Ltac Zify.zify_post_hook ::= idtac.

Lemma value_mod b : value b mod 2 ^ bw b = num b.
Proof.
  pose proof (num_range b) as R. unfold value. destruct (bsgn b); [|apply Z.mod_small; exact R]. unfold snum, twos. destruct (Z.testbit _ _); [|apply Z.mod_small; exact R].
  rewrite <- (Z.mod_add _ 1) by lia. rewrite Z.mod_small; lia.
Qed.
Lemma value_low b p : 0 <= p < bw b -> Z.testbit (value b) p = Z.testbit (num b) p.
Proof. intros H. rewrite <- (value_mod b). now rewrite Z.mod_pow2_bits_low by lia. Qed.
Lemma testbit_high z n p : 0 <= z < 2 ^ n -> 0 <= n <= p -> Z.testbit z p = false.
Proof. intros R H. rewrite <- (Z.mod_small z (2 ^ n)) by exact R. apply Z.mod_pow2_bits_high. lia. Qed.
Lemma testbit_neg z n p : - 2 ^ n <= z < 0 -> 0 <= n <= p -> Z.testbit z p = true.
Proof. intros R H. replace z with (Z.lnot (- z - 1)) by (unfold Z.lnot; lia). rewrite Z.lnot_spec by lia. rewrite (testbit_high _ n) by lia. reflexivity. Qed.
Lemma value_high b p : bw b <= p -> Z.testbit (value b) p = (value b <? 0).
Proof.
  intros H. pose proof (bw_pos b) as P. destruct (value_range b) as (R & Rs & Ru). assert (2 ^ (bw b - 1) <= 2 ^ bw b) by (apply Z.pow_le_mono_r; lia). destruct (Z.ltb_spec (value b) 0) as [L|L]; [apply (testbit_neg _ (bw b))|apply (testbit_high _ (bw b))]; lia.
Qed.
(** what widening puts into position [p] *)
Lemma widened_bits x m p : vec x -> tidy x -> bw x <= m -> 0 <= p < m -> (misread x m -> bw x <= p -> Z.testbit (widened x m) p = negb (Z.testbit (value x) p)) /\ (~ misread x m \/ p < bw x -> Z.testbit (widened x m) p = Z.testbit (value x) p).
Proof.
  intros V T Hm Hp. pose proof (bw_pos x) as P. unfold widened. destruct (Z.eqb_spec (bw x) m) as [E|E].
  - split; [intros (X & _); lia|]. intros _. rewrite value_low by lia. unfold num. now rewrite Z.mod_pow2_bits_low by lia.
  - unfold small. destruct (bw x <=? 64) eqn:S.
    + rewrite Z.mod_pow2_bits_low by lia. destruct (Z.eq_dec (bw x) 1) as [N|N].
      * destruct (stored_one x V N) as [-> C]. split; [intros (_ & Sg & [(_ & Y)|(Y & _)]) L; [|lia]|].
        { rewrite value_high by lia. unfold value, snum, twos. rewrite Sg, N, Y. cbn. destruct p; [lia|destruct p; reflexivity|lia]. }
        intros [NM|L]; [|rewrite value_low by lia; reflexivity]. destruct (bsgn x) eqn:Sg; [|unfold value; now rewrite Sg]. destruct C as [C|C]; [|exfalso; apply NM; unfold misread; rewrite Sg, C; split; [lia|]; split; [reflexivity|]; left; split; lia].
        unfold value, snum, twos. rewrite Sg, C. rewrite (Z.bits_0 (bw x - 1)). reflexivity.
      * rewrite (tidy_stored x) by (assumption || lia). split; [intros (_ & _ & [Y|Y]) _; lia|reflexivity].
    + assert (N : stored x = num x) by (apply stored_num; [exact V|exact T|right; lia]). pose proof (num_range x) as R. destruct (bsgn x) eqn:Sg; [|rewrite N; unfold value; rewrite Sg; split; [intros (_ & Y & _); congruence|reflexivity]].
      rewrite N, Z.lor_spec. assert (F : Z.testbit (2 ^ m - 2 ^ bw x) p = (bw x <=? p)).
      { replace (2 ^ m - 2 ^ bw x) with ((2 ^ (m - bw x) - 1) * 2 ^ bw x) by (rewrite Z.mul_sub_distr_r, <- Z.pow_add_r by lia; replace (m - bw x + bw x) with m by lia; lia). rewrite <- Z.shiftl_mul_pow2 by lia. rewrite Z.shiftl_spec by lia.
        destruct (Z.leb_spec (bw x) p) as [L|L]; [|apply Z.testbit_neg_r; lia]. replace (2 ^ (m - bw x) - 1) with (Z.ones (m - bw x)) by (rewrite Z.ones_equiv; lia). rewrite Z.ones_spec_low by lia. reflexivity. }
      rewrite F. split.
      * intros (_ & _ & [Y|(_ & Y)]) L; [lia|]. replace (bw x <=? p) with true by lia. rewrite orb_true_r, value_high by lia. unfold value. rewrite Sg. replace (snum x <? 0) with false by lia. reflexivity.
      * intros H. destruct (Z.leb_spec (bw x) p) as [L|L]; [|rewrite orb_false_r, value_low by lia; reflexivity]. rewrite orb_true_r, value_high by lia. unfold value. rewrite Sg. destruct H as [H|H]; [|lia]. destruct (Z.ltb_spec (snum x) 0) as [G|G]; [reflexivity|]. exfalso. apply H. unfold misread. rewrite Sg. split; [lia|]. split; [reflexivity|]. right. lia.
Qed.
(** what & | ^ of different widths compute *)
Lemma mixed_bitwise op zop cut a b na nb sa sb : 1 <= na -> 1 <= nb -> na <> nb -> typed a na sa -> typed b nb sb -> (forall x y m, 0 <= m -> zop x y mod 2 ^ m = zop (x mod 2 ^ m) (y mod 2 ^ m)) ->
  op a b = any_bitwise zop cut a b -> exists r, op a b = Ok r /\ num r = zop (widened a (Z.max na nb)) (widened b (Z.max na nb)) mod 2 ^ Z.max na nb.
Proof.
  intros Hna Hnb Ne Ta Tb Zm ->. pose proof (typed_bw a na sa Hna Ta) as Wa. pose proof (typed_bw b nb sb Hnb Tb) as Wb. set (m := Z.max na nb).
  assert (PU : pairs_up a b = true). { unfold pairs_up. rewrite Wa, Wb. replace (na =? nb) with false by lia. destruct Ta as (_ & [Am Al] & _), Tb as (_ & [Bm Bl] & _). destruct (na <? nb); rewrite ?Am, ?Al, ?Bm, ?Bl; apply orb_true_intro; right; lia. }
  assert (W : wider a b = m) by (unfold wider; rewrite Wa, Wb; reflexivity). unfold any_bitwise, bitwise, combined. rewrite PU, W. cbn [negb]. replace (bw a =? bw b) with false by lia. rewrite orb_true_r.
  assert (Mz : forall u v, zop u v mod 2 ^ m = (zop u v mod 2 ^ m) mod 2 ^ m) by (intros; symmetry; apply Z.mod_mod; pose proof (pow2_pos m ltac:(lia)); lia).
  destruct (small a && small b) eqn:S; (eexists; split; [reflexivity|]).
  - unfold small in S. assert (M2 : 2 <= m <= 64) by lia. unfold num, vector, bw, width. cbn [stored bval bmsb blsb]. replace (Z.abs (m - 1 - 0) + 1) with m by lia. destruct (MachineProofs.storage_cases m M2) as (A & _).
    rewrite <- (mod_mod_pow2 (store _ _ _) m (storage m)) by lia. rewrite store_mod_eq by exact M2. rewrite mod_mod_pow2 by lia. rewrite <- Mz. unfold widened, small. rewrite Wa, Wb. replace (na <=? 64) with true by lia. replace (nb <=? 64) with true by lia.
    rewrite (Zm (if na =? m then _ else _)) by lia. rewrite (Zm (stored a)) by lia. f_equal; destruct (_ =? m); rewrite ?Z.mod_mod by (pose proof (pow2_pos m ltac:(lia)); lia); reflexivity.
  - unfold num, vec_of, object, bw. cbn [bmsb blsb]. replace (width (m - 1) 0) with m by (unfold width; lia). assert (65 <= m) by (unfold small in S; lia). replace (m <=? 64) with false by lia. cbn [stored bval]. rewrite words_of_num by lia. rewrite mod_mod_pow2 by (pose proof (capacity_ge m); lia). now rewrite <- Mz.
Qed.
Lemma mod_bits_eq x y m : 0 <= m -> x mod 2 ^ m = y mod 2 ^ m <-> forall p, 0 <= p < m -> Z.testbit x p = Z.testbit y p.
Proof.
  intros Hm. split.
  - intros E p Hp. rewrite <- (Z.mod_pow2_bits_low x m), <- (Z.mod_pow2_bits_low y m) by lia. now rewrite E.
  - intros H. apply Z.bits_inj'. intros p Hp. destruct (Z.lt_ge_cases p m) as [L|L]; [rewrite !Z.mod_pow2_bits_low by lia; apply H; lia|rewrite !Z.mod_pow2_bits_high by lia; reflexivity].
Qed.
Lemma misread_dec x m : misread x m \/ ~ misread x m.
Proof. unfold misread. destruct (bsgn x); [|right; intros (_ & Y & _); discriminate]. assert (D : (bw x < m /\ (bw x = 1 /\ num x = 1 \/ 65 <= bw x /\ 0 <= snum x)) \/ ~ (bw x < m /\ (bw x = 1 /\ num x = 1 \/ 65 <= bw x /\ 0 <= snum x))) by lia. tauto. Qed.
Lemma wide_not_misread x m : m <= bw x -> ~ misread x m. Proof. intros H (X & _). lia. Qed.
(** one boolean function [f] per position *)
Lemma mixed_right zop f x y m : (forall u v p, 0 <= p -> Z.testbit (zop u v) p = f (Z.testbit u p) (Z.testbit v p)) -> vec x -> vec y -> tidy x -> tidy y -> bw x < m -> bw y = m ->
  zop (widened x m) (widened y m) mod 2 ^ m = zop (value x) (value y) mod 2 ^ m <-> (misread x m -> forall p, bw x <= p < m -> f true (Z.testbit (num y) p) = f false (Z.testbit (num y) p)).
Proof.
  intros Zt Vx Vy Tx Ty Hx Hy. pose proof (bw_pos x) as P. rewrite mod_bits_eq by lia. split.
  - intros H Mr p Hp. specialize (H p ltac:(lia)). rewrite !Zt in H by lia. rewrite (proj1 (widened_bits x m p Vx Tx ltac:(lia) ltac:(lia)) Mr) in H by lia. rewrite (proj2 (widened_bits y m p Vy Ty ltac:(lia) ltac:(lia))) in H by (left; apply wide_not_misread; lia). rewrite (value_low y) in H by lia. destruct (Z.testbit (value x) p); cbn [negb] in H; congruence.
  - intros H p Hp. rewrite !Zt by lia. rewrite (proj2 (widened_bits y m p Vy Ty ltac:(lia) ltac:(lia))) by (left; apply wide_not_misread; lia). destruct (widened_bits x m p Vx Tx ltac:(lia) ltac:(lia)) as [B1 B2]. destruct (misread_dec x m) as [Mr|Mr]; [|rewrite B2 by tauto; reflexivity].
    destruct (Z.lt_ge_cases p (bw x)) as [L|L]; [rewrite B2 by tauto; reflexivity|]. rewrite B1 by (assumption || lia). specialize (H Mr p ltac:(lia)). rewrite (value_low y) by lia. destruct (Z.testbit (value x) p); cbn [negb]; congruence.
Qed.
Lemma all_low z k m : 0 <= k <= m -> 0 <= z < 2 ^ m -> (forall p, k <= p < m -> Z.testbit z p = false) <-> z < 2 ^ k.
Proof.
  intros Hk Hz. split.
  - intros H. destruct (Z.eq_dec z 0) as [->|N]; [apply pow2_pos; lia|]. destruct (Z.lt_ge_cases z (2 ^ k)) as [L|L]; [exact L|]. exfalso. assert (k <= Z.log2 z) by (apply Z.log2_le_pow2; lia). assert (Z.log2 z < m) by (apply Z.log2_lt_pow2; lia). specialize (H (Z.log2 z) ltac:(lia)). rewrite Z.bit_log2 in H by lia. discriminate.
  - intros L p Hp. apply (testbit_high z k); lia.
Qed.
Lemma all_high z k m : 0 <= k <= m -> 0 <= z < 2 ^ m -> (forall p, k <= p < m -> Z.testbit z p = true) <-> 2 ^ m - 2 ^ k <= z.
Proof.
  intros Hk Hz. pose proof (all_low (2 ^ m - 1 - z) k m Hk ltac:(lia)) as A. assert (B : forall p, 0 <= p < m -> Z.testbit (2 ^ m - 1 - z) p = negb (Z.testbit z p)).
  { intros p Hp. rewrite <- (Z.mod_pow2_bits_low (2 ^ m - 1 - z) m) by lia. replace (2 ^ m - 1 - z) with (Z.lnot z + 1 * 2 ^ m) by (unfold Z.lnot; lia). rewrite Z.mod_add by lia. rewrite Z.mod_pow2_bits_low, Z.lnot_spec by lia. reflexivity. }
  split.
  - intros H. assert (2 ^ m - 1 - z < 2 ^ k); [|lia]. apply A. intros p Hp. rewrite B by lia. now rewrite H by lia.
  - intros H p Hp. assert (G : 2 ^ m - 1 - z < 2 ^ k) by lia. apply (proj2 A G) in Hp as Q. rewrite B in Q by lia. destruct (Z.testbit z p); [reflexivity|discriminate].
Qed.
Definition alike (f : bool -> bool -> bool) (x y : bit) (m : Z) : Prop := misread x m -> forall p, bw x <= p < m -> f true (Z.testbit (num y) p) = f false (Z.testbit (num y) p).
Lemma mixed_iff op zop cut f a b na nb sa sb : (forall u v, zop u v = zop v u) -> (forall u v p, 0 <= p -> Z.testbit (zop u v) p = f (Z.testbit u p) (Z.testbit v p)) -> (forall x y m, 0 <= m -> zop x y mod 2 ^ m = zop (x mod 2 ^ m) (y mod 2 ^ m)) ->
  1 <= na -> 1 <= nb -> na <> nb -> typed a na sa -> typed b nb sb -> tidy a -> tidy b -> op a b = any_bitwise zop cut a b ->
  (exists r, op a b = Ok r /\ num r = zop (value a) (value b) mod 2 ^ Z.max na nb) <-> alike f a b (Z.max na nb) /\ alike f b a (Z.max na nb).
Proof.
  intros Cm Zt Zm Hna Hnb Ne Ta Tb Da Db E. pose proof (typed_bw a na sa Hna Ta) as Wa. pose proof (typed_bw b nb sb Hnb Tb) as Wb. destruct (mixed_bitwise op zop cut a b na nb sa sb Hna Hnb Ne Ta Tb Zm E) as (r & Er & Nr). set (m := Z.max na nb) in *.
  assert (Q : (exists r, op a b = Ok r /\ num r = zop (value a) (value b) mod 2 ^ m) <-> zop (widened a m) (widened b m) mod 2 ^ m = zop (value a) (value b) mod 2 ^ m).
  { rewrite Er. split; [intros (r' & F & N'); injection F as <-; congruence|]. intros F. exists r. split; [reflexivity|congruence]. }
  rewrite Q. destruct (Z.lt_ge_cases na nb) as [L|L].
  - rewrite (mixed_right zop f a b m Zt (proj1 Ta) (proj1 Tb) Da Db) by lia. fold (alike f a b m). assert (alike f b a m) by (intros X; exfalso; revert X; apply wide_not_misread; lia). tauto.
  - rewrite (Cm (widened a m)), (Cm (value a)). rewrite (mixed_right zop f b a m Zt (proj1 Tb) (proj1 Ta) Db Da) by lia. fold (alike f b a m). assert (alike f a b m) by (intros X; exfalso; revert X; apply wide_not_misread; lia). tauto.
Qed.
Lemma bitwise_mixed_iff a b na nb sa sb : 1 <= na -> 1 <= nb -> na <> nb -> typed a na sa -> typed b nb sb -> tidy a -> tidy b ->
  let m := Z.max na nb in
  ((exists r, bit_and a b = Ok r /\ num r = Z.land (value a) (value b) mod 2 ^ m) <-> (misread a m -> num b < 2 ^ na) /\ (misread b m -> num a < 2 ^ nb)) /\
  ((exists r, bit_or a b = Ok r /\ num r = Z.lor (value a) (value b) mod 2 ^ m) <-> (misread a m -> 2 ^ m - 2 ^ na <= num b) /\ (misread b m -> 2 ^ m - 2 ^ nb <= num a)) /\
  ((exists r, bit_xor a b = Ok r /\ num r = Z.lxor (value a) (value b) mod 2 ^ m) <-> ~ misread a m /\ ~ misread b m).
Proof.
  intros Hna Hnb Ne Ta Tb Da Db m. pose proof (typed_bw a na sa Hna Ta) as Wa. pose proof (typed_bw b nb sb Hnb Tb) as Wb. pose proof (num_range a) as Ra. pose proof (num_range b) as Rb. rewrite Wa in Ra. rewrite Wb in Rb.
  assert (MA : misread a m -> m = nb /\ na < m) by (intros (X & _); lia). assert (MB : misread b m -> m = na /\ nb < m) by (intros (X & _); lia).
  split; [|split].
  - subst m. rewrite (mixed_iff bit_and Z.land true andb a b na nb sa sb) by (assumption || (intros; apply Z.land_comm) || (intros; apply Z.land_spec) || (intros; apply land_mod_pow2; lia) || (apply and_any; (exact (proj1 Ta) || exact (proj1 Tb)))). set (m := Z.max na nb) in *. clearbody m. unfold alike. cbn [andb]. rewrite Wa, Wb. split.
    + intros [A B]. split; intros X; [destruct (MA X) as [Em Lm]|destruct (MB X) as [Em Lm]]; subst m; [apply (all_low (num b) na nb)|apply (all_low (num a) nb na)]; auto; lia.
    + intros [A B]. split; intros X; [destruct (MA X) as [Em Lm]|destruct (MB X) as [Em Lm]]; subst m; [apply (all_low (num b) na nb)|apply (all_low (num a) nb na)]; auto; lia.
  - subst m. rewrite (mixed_iff bit_or Z.lor false orb a b na nb sa sb) by (assumption || (intros; apply Z.lor_comm) || (intros; apply Z.lor_spec) || (intros; apply lor_mod_pow2; lia) || (apply or_any; (exact (proj1 Ta) || exact (proj1 Tb)))). set (m := Z.max na nb) in *. clearbody m. unfold alike. cbn [orb]. rewrite Wa, Wb. split.
    + intros [A B]. split; intros X; [destruct (MA X) as [Em Lm]|destruct (MB X) as [Em Lm]]; subst m; [apply (all_high (num b) na nb)|apply (all_high (num a) nb na)]; try lia; intros p Hp; symmetry; auto.
    + intros [A B]. split; intros X p Hp; symmetry; revert p Hp; [destruct (MA X) as [Em Lm]|destruct (MB X) as [Em Lm]]; subst m; [apply (all_high (num b) na nb)|apply (all_high (num a) nb na)]; auto; lia.
  - subst m. rewrite (mixed_iff bit_xor Z.lxor false xorb a b na nb sa sb) by (assumption || (intros; apply Z.lxor_comm) || (intros; apply Z.lxor_spec) || (intros; apply lxor_mod_pow2; lia) || (apply xor_any; (exact (proj1 Ta) || exact (proj1 Tb)))). set (m := Z.max na nb) in *. clearbody m. unfold alike. rewrite Wa, Wb. split.
    + intros [A B]. split; intros X; [specialize (A X na); destruct (MA X) as [? ?]|specialize (B X nb); destruct (MB X) as [? ?]]; [assert (Y : na <= na < m) by lia; specialize (A Y); destruct (Z.testbit (num b) na); discriminate|assert (Y : nb <= nb < m) by lia; specialize (B Y); destruct (Z.testbit (num a) nb); discriminate].
    + intros [A B]. split; intros X; contradiction.
Qed.

(** * compound assignment (C66) *)
Lemma compound_iff_gen op zop a b na nb : bit_spec2 op zop -> 1 <= na -> 1 <= nb -> typed a na false -> typed b nb false -> tidy a -> tidy b ->
  (exists r, bit_compound op a b = Ok r /\ num r = zop (num a) (num b) mod 2 ^ na) <->
  (na <= 64 -> nb <= 64) /\ (65 <= na -> nb <= na) /\ (na = 1 -> zop (num a) (num b) = 0 \/ Z.odd (zop (num a) (num b)) = true).
Proof.
  intros [Same Mixed] Hna Hnb Ta Tb Da Db. pose proof (typed_bw a na false Hna Ta) as Wa. pose proof (typed_bw b nb false Hnb Tb) as Wb. pose proof (num_range a) as Ra. pose proof (num_range b) as Rb. rewrite Wa in Ra. rewrite Wb in Rb.
  assert (Sa : bsgn a = false) by apply Ta. assert (Sb : bsgn b = false) by apply Tb.
  assert (X : exists x, op a b = Ok x /\ typed x (Z.max na nb) false /\ num x = zop (num a) (num b) /\ tidy x).
  { destruct (Z.eq_dec na nb) as [E|E].
    - rewrite <- E in *. destruct (Same a b na (proj1 Ta) (proj1 Tb) Wa Wb) as (x & Ex & Tx & Nx & Yx); [destruct Tb as (_ & [-> ->] & _); lia|]. exists x. rewrite Z.max_id. rewrite Sa, Sb in Tx. cbn [andb] in Tx. split; [exact Ex|]. split; [exact Tx|]. split; [exact Nx|]. apply Yx; congruence || assumption.
    - destruct (Mixed a b na nb false false Hna Hnb E Ta Tb) as (x & Ex & Tx & Nx & Yx); [split; [exact Da|congruence]|split; [exact Db|congruence]|]. exists x. split; [exact Ex|]. split; [exact Tx|]. split; [|apply Yx; now left].
      rewrite Nx. unfold value. rewrite Sa, Sb. assert (2 ^ na <= 2 ^ Z.max na nb) by (apply Z.pow_le_mono_r; lia). assert (2 ^ nb <= 2 ^ Z.max na nb) by (apply Z.pow_le_mono_r; lia). rewrite !Z.mod_small by lia. reflexivity. }
  destruct X as (x & Ex & Tx & Nx & Yx). assert (Hm : 1 <= Z.max na nb) by lia. pose proof (assign_iff a x na (Z.max na nb) false false Hna Hm Ta Tx Yx) as A. assert (Vx : value x = zop (num a) (num b)) by (unfold value; rewrite (proj2 (proj2 Tx)); exact Nx). rewrite Vx, Nx in A.
  assert (OK : compound_ok a (bsgn b) = true). { unfold compound_ok. rewrite (typed_bsize a na false Hna Ta). destruct Ta as (_ & [-> ->] & ->). rewrite !Z.eqb_refl. reflexivity. }
  assert (Q : (exists r, bit_compound op a b = Ok r /\ num r = zop (num a) (num b) mod 2 ^ na) <-> (exists r, bit_assign a x = Ok r /\ num r = zop (num a) (num b) mod 2 ^ na)).
  { unfold bit_compound, requires. rewrite OK, Ex. cbn [bind]. destruct (bit_assign a x) as [r| | | |] eqn:Er; cbn [bind]; try (split; intros (r' & F & _); discriminate).
    assert (Tr : typed r na false). { destruct (assign_keeps a x r Er) as (K1 & K2 & K3). split; [apply (assign_vec a x r (proj1 Ta) (proj1 Tx) Er)|]. unfold plain. rewrite K1, K2, K3. split; [apply Ta|apply Ta]. }
    destruct (bit_mask_off_spec r na false Hna Tr) as (_ & N & _). split; intros (r' & F & N'); injection F as <-; eexists; (split; [reflexivity|]); congruence. }
  rewrite Q, A. split.
  - intros (B & C & _). repeat split; [lia|lia|exact C].
  - intros (B & C & D). split; [lia|]. split; [exact D|]. intros _ _ Y. discriminate.
Qed.
Lemma compound_iff a b na nb : 1 <= na -> 1 <= nb -> typed a na false -> typed b nb false -> tidy a -> tidy b ->
  forall op zop, In (op, zop) [(bit_and_assign, Z.land); (bit_or_assign, Z.lor); (bit_xor_assign, Z.lxor)] ->
  (exists r, op a b = Ok r /\ num r = zop (num a) (num b) mod 2 ^ na) <->
  (na <= 64 -> nb <= 64) /\ (65 <= na -> nb <= na) /\ (na = 1 -> zop (num a) (num b) = 0 \/ Z.odd (zop (num a) (num b)) = true).
Proof.
  intros Hna Hnb Ta Tb Da Db op zop [E|[E|[E|[]]]]; injection E as <- <-.
  - apply (compound_iff_gen bit_and); auto using bit_and_spec2.
  - apply (compound_iff_gen bit_or); auto using bit_or_spec2.
  - apply (compound_iff_gen bit_xor); auto using bit_xor_spec2.
Qed.
