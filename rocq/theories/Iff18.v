(** Exactly which conversions exist, and what they give. *)
From Coq Require Import ZArith List Bool Lia Zify ZifyBool.
From Verif Require Import Cpp BigNum Bit Logic Spec SpecExact SpecMachine SpecWide SpecFour SpecIff SpecIff4 ZBits Words BigNumProofs BitProofs BitOps BitMain3 MachineProofs WideProofs WideProofs3 WideProofs4 Reach ReachProofs ReachProofs2 ReachProofs4 FourProofs FourProofs2 FourProofs3 Iff3 Iff5 Iff14 ArrRef2.
Import ListNotations.
Open Scope Z_scope.
Local Ltac Zify.zify_post_hook ::= idtac.

Lemma convert_any msb lsb s a : declarable msb lsb -> vec a ->
  bit_convert msb lsb s a = if (bmsb a =? msb) && (blsb a =? lsb) && Bool.eqb (bsgn a) s then Ok a else if bsgn a then any_assign (object msb lsb s 0) a else IllFormed.
Proof.
  intros D V. unfold bit_convert. destruct (_ && _); [reflexivity|]. destruct (bsgn a); [|reflexivity].
  destruct (is_zero msb lsb s D) as (VZ & MZ & LZ & SZ0). rewrite <- zero_object, <- (assign_any (bit_zero msb lsb s) a VZ V).
  unfold bit_assign, bsize. rewrite MZ, LZ, SZ0. reflexivity.
Qed.
Lemma same_kind_dec n m : same_kind n m \/ ~ same_kind n m.
Proof. unfold same_kind. lia. Qed.
Lemma any_assign_kind d a : vec d -> vec a -> (same_kind (bw a) (bw d) -> any_assign d a = Ok (rewritten d (stored a))) /\ (~ same_kind (bw a) (bw d) -> any_assign d a = IllFormed).
Proof.
  intros Vd Va. unfold any_assign, small, same_kind. split; intros K.
  - replace (_ || _) with true by lia. reflexivity.
  - replace (_ || _) with false by lia. reflexivity.
Qed.
Lemma object_bw0 m l s z : bw (object m l s z) = width m l. Proof. reflexivity. Qed.
Lemma same_type_dec msb lsb s a : {bmsb a = msb /\ blsb a = lsb /\ bsgn a = s /\ (bmsb a =? msb) && (blsb a =? lsb) && Bool.eqb (bsgn a) s = true} +
  {~ (bmsb a = msb /\ blsb a = lsb /\ bsgn a = s) /\ (bmsb a =? msb) && (blsb a =? lsb) && Bool.eqb (bsgn a) s = false}.
Proof.
  destruct (Z.eqb_spec (bmsb a) msb), (Z.eqb_spec (blsb a) lsb), (Bool.eqb (bsgn a) s) eqn:E; cbn [andb]; try (right; split; [tauto|reflexivity]).
  - left. apply Bool.eqb_prop in E. auto.
  - right. split; [|reflexivity]. intros (_ & _ & X). rewrite X, Bool.eqb_reflx in E. discriminate.
Qed.
Lemma convert_cases msb lsb s a : declarable msb lsb -> vec a ->
  (bmsb a = msb /\ blsb a = lsb /\ bsgn a = s /\ bit_convert msb lsb s a = Ok a) \/
  (~ (bmsb a = msb /\ blsb a = lsb /\ bsgn a = s) /\
   ((bsgn a = true /\ same_kind (bw a) (width msb lsb) /\ bit_convert msb lsb s a = Ok (object msb lsb s (stored a))) \/
    (~ (bsgn a = true /\ same_kind (bw a) (width msb lsb)) /\ bit_convert msb lsb s a = IllFormed))).
Proof.
  intros D V. rewrite (convert_any msb lsb s a D V). destruct (same_type_dec msb lsb s a) as [(A & B & C & ->)|(A & ->)]; [left; auto|right]. split; [exact A|].
  destruct (bsgn a); [|right; split; [intros [E _]; discriminate|reflexivity]].
  assert (VZ : vec (object msb lsb s 0)) by (rewrite <- zero_object; apply (is_zero msb lsb s D)).
  destruct (any_assign_kind (object msb lsb s 0) a VZ V) as [K1 K2]. rewrite object_bw0 in K1, K2.
  destruct (same_kind_dec (bw a) (width msb lsb)) as [K|K]; [left|right]; [rewrite (K1 K)|rewrite (K2 K)]; tauto.
Qed.

Lemma amount_stored a : vec a -> tidy a -> (stored a) mod 2 ^ bw a = num a /\ (bw a <= 64 -> stored a = amount a).
Proof.
  intros V T. split; [reflexivity|]. intros W. unfold amount. pose proof (bw_pos a). destruct (Z.eqb_spec (bw a) 1) as [E|E].
  - unfold num. destruct (vec_cases a V) as [(v & B & _ & I & St)|(ws & _ & L & _)]; [|lia]. rewrite E in *. unfold tidy in T. rewrite B, E in T. rewrite andb_false_r in T. rewrite St, Z.mod_small by lia. reflexivity.
  - apply tidy_stored; [assumption|assumption|lia].
Qed.
Lemma amount_wide a n : vec a -> tidy a -> 65 <= bw a -> n = bw a -> (amount a) mod 2 ^ n = num a.
Proof.
  intros V T W ->. unfold amount. replace (bw a =? 1) with false by lia. unfold value. destruct (bsgn a); [|unfold num; rewrite Z.mod_mod by (apply Z.pow_nonzero; lia); reflexivity].
  unfold snum, twos. destruct (Z.testbit _ _).
  - replace (num a - 2 ^ bw a) with (num a + (-1) * 2 ^ bw a) by lia. rewrite Z.mod_add by (apply Z.pow_nonzero; lia). unfold num. rewrite Z.mod_mod by (apply Z.pow_nonzero; lia). reflexivity.
  - unfold num. rewrite Z.mod_mod by (apply Z.pow_nonzero; lia). reflexivity.
Qed.

Lemma object_one m l s z : width m l = 1 -> num (object m l s z) = if z =? 0 then 0 else 1.
Proof.
  intros W. unfold num, object, stored, bw. cbn zeta. cbn [bmsb blsb bval]. rewrite W. cbn [Z.leb Z.compare Pos.compare Pos.compare_cont]. unfold store. change (1 =? 1) with true. cbn iota. destruct (z =? 0); reflexivity.
Qed.

(** 2-state *)
Lemma convert_exact msb lsb s a : declarable msb lsb -> vec a -> tidy a ->
  ((exists r, bit_convert msb lsb s a = Ok r) <-> acceptable msb lsb s (bmsb a) (blsb a) (bsgn a)) /\
  (~ acceptable msb lsb s (bmsb a) (blsb a) (bsgn a) -> bit_convert msb lsb s a = IllFormed) /\
  (forall r, bit_convert msb lsb s a = Ok r ->
     vec r /\ bmsb r = msb /\ blsb r = lsb /\ bsgn r = s /\
     (bmsb a = msb -> blsb a = lsb -> bsgn a = s -> r = a) /\
     num r = if width msb lsb =? 1 then (if amount a =? 0 then 0 else 1) else (amount a) mod 2 ^ width msb lsb).
Proof.
  intros D V T. unfold acceptable. fold (bw a). destruct (convert_cases msb lsb s a D V) as [(A & B & C & E)|(A & [(B & K & E)|(B & E)])].
  - split; [split; [intros _; left; auto|intros _; exists a; exact E]|]. split; [intros N; exfalso; apply N; left; auto|]. intros r E'. rewrite E in E'. injection E' as <-.
    do 4 (split; [assumption|]). split; [reflexivity|]. assert (W : width msb lsb = bw a) by (unfold bw; now rewrite A, B). rewrite W.
    destruct (amount_stored a V T) as [S1 S2]. destruct (Z.eqb_spec (bw a) 1) as [E1|E1].
    + assert (U : amount a = num a) by (unfold amount; now rewrite E1). rewrite U. assert (0 <= num a < 2) by (unfold num; rewrite E1; apply Z.mod_pos_bound; lia). destruct (Z.eqb_spec (num a) 0); lia.
    + destruct (Z.le_gt_cases (bw a) 64) as [L|L]; [rewrite <- (S2 L); reflexivity|]. symmetry. apply amount_wide; auto. lia.
  - split; [split; [intros _; right; auto|intros _; eexists; exact E]|]. split; [intros N; exfalso; apply N; right; auto|]. intros r E'. rewrite E in E'. injection E' as <-.
    assert (VO : vec (object msb lsb s (stored a))) by (apply object_vec; apply D). repeat (split; [assumption || reflexivity|]). split; [intros; exfalso; apply A; auto|].
    destruct (amount_stored a V T) as [S1 S2]. pose proof (size_pos msb lsb) as P. change (vsize msb lsb) with (width msb lsb) in P. destruct (Z.eqb_spec (width msb lsb) 1) as [E1|E1].
    + rewrite object_one by exact E1. rewrite S2 by (unfold same_kind in K; lia). reflexivity.
    + rewrite object_num by lia. destruct K as [[K _]|[K1 K2]]; [rewrite S2 by exact K; reflexivity|]. rewrite amount_wide by auto. rewrite <- K2. exact S1.
  - split; [split; [intros [r X]; congruence|intros [X|X]; [exfalso; tauto|exfalso; tauto]]|]. split; [intros _; exact E|]. intros r X. congruence.
Qed.

(** 4-state *)
Lemma lconvert_cases msb lsb s l : declarable msb lsb -> lvec l ->
  (lmsb l = msb /\ llsb l = lsb /\ lsgn l = s /\ logic_convert msb lsb s l = Ok l) \/
  (~ (lmsb l = msb /\ llsb l = lsb /\ lsgn l = s) /\
   ((lsgn l = true /\ same_kind (lw l) (width msb lsb) /\ logic_convert msb lsb s l = Ok (object4 msb lsb s (stored (l_val l)) (stored (l_xz l)))) \/
    (~ (lsgn l = true /\ same_kind (lw l) (width msb lsb)) /\ logic_convert msb lsb s l = IllFormed))).
Proof.
  intros D L. unfold logic_convert, lmsb, llsb, lsgn. destruct (same_type_dec msb lsb s (l_val l)) as [(A & B & C & ->)|(A & ->)]; [left; auto|right]. split; [exact A|].
  destruct (bsgn (l_val l)) eqn:Sg; [|right; split; [intros [E _]; discriminate|reflexivity]].
  destruct L as (Va & Vm & M1 & M2 & M3). rewrite (default_object msb lsb s D). unfold logic_assign, object4. cbn [l_val l_xz].
  assert (V1 : vec (object msb lsb s 0)) by (apply object_vec; apply D).
  assert (V2 : vec (object msb lsb false (2 ^ width msb lsb - 1))) by (apply object_vec; apply D).
  assert (W : bw (l_xz l) = bw (l_val l)) by (unfold bw; now rewrite M1, M2).
  rewrite (assign_any _ _ V1 Va), (assign_any _ _ V2 Vm).
  destruct (any_assign_kind _ _ V1 Va) as [K1 K2]. destruct (any_assign_kind _ _ V2 Vm) as [K3 K4]. rewrite object_bw0 in K1, K2, K3, K4. rewrite W in K3, K4. unfold lw.
  destruct (same_kind_dec (bw (l_val l)) (width msb lsb)) as [K|K]; [left|right].
  - rewrite (K1 K), (K3 K). cbn [bind]. unfold rewritten. cbn [object bmsb blsb bsgn]. tauto.
  - rewrite (K2 K). cbn [bind]. tauto.
Qed.
Lemma object_bit0 m l s z p : int_ok m -> int_ok l -> width m l < 2 ^ 31 -> 2 <= width m l -> 0 <= p < width m l -> bit_at (object m l s z) p = Z.testbit z p.
Proof.
  intros A B C W P. unfold bit_at. rewrite object_num by exact W. apply Z.mod_pow2_bits_low. lia.
Qed.
Lemma stored_bit b p : 0 <= p < bw b -> Z.testbit (stored b) p = bit_at b p.
Proof. intros P. unfold bit_at, num. rewrite Z.mod_pow2_bits_low by lia. reflexivity. Qed.
Lemma sign_bit b : vec b -> bsgn b = true -> 2 <= bw b -> (value b <? 0) = bit_at b (bw b - 1).
Proof.
  intros V S1 W. unfold value. rewrite S1. unfold snum, twos. fold (bit_at b (bw b - 1)). pose proof (num_range b) as R. destruct (bit_at b (bw b - 1)); lia.
Qed.
Lemma tidy_above b p : vec b -> tidy b -> bw b <= 64 -> bw b <= p -> Z.testbit (stored b) p = bsgn b && (1 <? bw b) && bit_at b (bw b - 1).
Proof.
  intros V T W P. pose proof (bw_pos b). destruct (Z.eqb_spec (bw b) 1) as [E|E].
  - replace (1 <? bw b) with false by lia. rewrite andb_false_r. cbn [andb]. destruct (amount_stored b V T) as [_ ->]; [|lia]. unfold amount. rewrite E. change (1 =? 1) with true. cbn iota. apply (testbit_high _ 1); [|lia]. pose proof (num_range b) as R. rewrite E in R. exact R.
  - rewrite tidy_stored by (auto; lia). rewrite value_high by exact P. replace (1 <? bw b) with true by lia. rewrite andb_true_r. destruct (bsgn b) eqn:S1; cbn [andb].
    + apply sign_bit; [assumption|assumption|lia].
    + unfold value. rewrite S1. pose proof (num_range b). lia.
Qed.
Lemma sym_object4 m l s v x p : sym_at (object4 m l s v x) p = sym_of (bit_at (object m l s v) p) (bit_at (object m l false x) p).
Proof. reflexivity. Qed.
Lemma one_bit m l s z : width m l = 1 -> bit_at (object m l s z) 0 = negb (z =? 0).
Proof. intros W. unfold bit_at. rewrite object_one by exact W. destruct (z =? 0); reflexivity. Qed.
Lemma lconvert_exact msb lsb s l : declarable msb lsb -> lvec l -> ltidy l ->
  ((exists r, logic_convert msb lsb s l = Ok r) <-> acceptable msb lsb s (lmsb l) (llsb l) (lsgn l)) /\
  (~ acceptable msb lsb s (lmsb l) (llsb l) (lsgn l) -> logic_convert msb lsb s l = IllFormed) /\
  (forall r, logic_convert msb lsb s l = Ok r ->
     lvec r /\ lmsb r = msb /\ llsb r = lsb /\ lsgn r = s /\
     (lmsb l = msb -> llsb l = lsb -> lsgn l = s -> r = l) /\
     (2 <= width msb lsb -> forall p, 0 <= p < width msb lsb -> sym_at r p = if p <? lw l then sym_at l p else sym_of_bool ((1 <? lw l) && bit_at (l_val l) (lw l - 1))) /\
     (width msb lsb = 1 -> sym_at r 0 = sym_of (negb (num (l_val l) =? 0)) (negb (num (l_xz l) =? 0)))).
Proof.
  intros D L [T1 T2]. unfold acceptable. change (width (lmsb l) (llsb l)) with (lw l). pose proof L as L'. destruct L as (Va & Vm & M1 & M2 & M3).
  assert (W : bw (l_xz l) = lw l) by (unfold lw, bw; now rewrite M1, M2).
  destruct (lconvert_cases msb lsb s l D L') as [(A & B & C & E)|(A & [(B & K & E)|(B & E)])].
  - split; [split; [intros _; left; auto|intros _; exists l; exact E]|]. split; [intros N; exfalso; apply N; left; auto|]. intros r E'. rewrite E in E'. injection E' as <-.
    do 4 (split; [assumption|]). split; [reflexivity|]. assert (W' : lw l = width msb lsb) by (unfold lw, bw; unfold lmsb, llsb in A, B; now rewrite A, B). rewrite W'. split.
    + intros _ p P. replace (p <? width msb lsb) with true by lia. reflexivity.
    + intros E1. unfold sym_at, bit_at. pose proof (num_range (l_val l)) as R1. pose proof (num_range (l_xz l)) as R2. rewrite W in R2. fold (lw l) in R1. rewrite W', E1 in R1, R2. change (2 ^ 1) with 2 in R1, R2.
      assert (X : num (l_val l) = 0 \/ num (l_val l) = 1) by lia. assert (Y : num (l_xz l) = 0 \/ num (l_xz l) = 1) by lia. destruct X as [-> | ->], Y as [-> | ->]; reflexivity.
  - split; [split; [intros _; right; auto|intros _; eexists; exact E]|]. split; [intros N; exfalso; apply N; right; auto|]. intros r E'. rewrite E in E'. injection E' as <-.
    assert (VO : lvec (object4 msb lsb s (stored (l_val l)) (stored (l_xz l)))) by (repeat split; try (apply object_vec; apply D); apply D).
    do 4 (split; [assumption || reflexivity|]). split; [intros; exfalso; apply A; auto|]. unfold lsgn in B. split.
    + intros W2 p P. rewrite sym_object4, !object_bit0 by (try apply D; assumption). destruct (Z.ltb_spec p (lw l)) as [Q|Q].
      * unfold sym_at. rewrite !stored_bit by (rewrite ?W; unfold lw in Q |- *; lia). reflexivity.
      * assert (Hn : lw l <= 64) by (destruct K as [K|[K1 K2]]; lia). rewrite (tidy_above (l_val l)) by (assumption || (unfold lw in *; lia)). rewrite (tidy_above (l_xz l)) by (assumption || lia). rewrite B, M3. cbn [andb]. unfold lw. destruct ((1 <? bw (l_val l)) && _); reflexivity.
    + intros E1. rewrite sym_object4, !one_bit by exact E1. assert (Hn : lw l <= 64) by (unfold same_kind in K; lia).
      assert (Z0 : forall b, vec b -> tidy b -> bw b <= 64 -> (stored b =? 0) = (num b =? 0)).
      { intros b V T Wb. destruct (amount_stored b V T) as [_ S2]. pose proof (S2 Wb) as S3. unfold num. pose proof (bw_pos b) as Pb. destruct (Z.eqb_spec (stored b) 0) as [-> | N]; [rewrite Z.mod_0_l by (apply Z.pow_nonzero; lia); reflexivity|].
        symmetry. apply Z.eqb_neq. fold (num b). intros Q. apply N. rewrite S3. unfold amount. rewrite Q. destruct (bw b =? 1); [reflexivity|]. unfold value, snum. rewrite Q. destruct (bsgn b); [|reflexivity]. unfold twos. rewrite Z.testbit_0_l. reflexivity. }
      rewrite !Z0 by (assumption || (unfold lw in *; lia)). reflexivity.
  - split; [split; [intros [r X]; congruence|intros [X|X]; [exfalso; tauto|exfalso; tauto]]|]. split; [intros _; exact E|]. intros r X. congruence.
Qed.
