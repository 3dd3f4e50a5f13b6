(** Lemmas about the members of Rest.v. *)
From Coq Require Import ZArith List Bool Lia Zify ZifyBool.
From Verif Require Import Cpp BigNum Bit Logic Arr Util More Rest Spec SpecArr SpecExact ZBits Words BigNumProofs BigArith BitProofs BitSlice BitExt BitOps BitShift BitArith BitMain BitMain2 BitMain3 BitCmp BitMain4 BitMain5 Exact2 Exact3 Exact Exact4 Exact5.
From Verif Require Import LogicProofs LogicOps LogicRed LogicArith LogicConv LogicConv2 LogicMain ArrProofs Client ClientProofs LawProofs BigObj SpecBig BigObjProofs BigObjProofs2 BigObjProofs3 SpecText TextProofs.
Import ListNotations.
Open Scope Z_scope.

(** * negate in place *)
Lemma negate_step t v : in_ity t v = true -> c_add (promote t) TI32 (c_not t v) 1 = arith (promote t) (- v).
Proof.
  intros I. unfold c_add, c_not. cbn zeta. assert (U : uac (promote t) TI32 = promote t) by (destruct t; reflexivity). rewrite U.
  assert (L : Z.lnot v = - v - 1) by (unfold Z.lnot; lia). rewrite L.
  unfold arith. destruct (isigned (promote t)) eqn:S.
  - assert (I2 := in_promote t v I). rewrite in_ity_range, S in I2.
    assert (C1 : conv (promote t) (- v - 1) = - v - 1) by (apply conv_id, in_ity_range; rewrite S; lia).
    assert (C2 : conv (promote t) 1 = 1). { apply conv_id, in_ity_range. rewrite S. assert (32 <= iwidth (promote t)) by apply promote_32. assert (2 ^ 31 <= 2 ^ (iwidth (promote t) - 1)) by (apply Z.pow_le_mono_r; lia). lia. }
    rewrite C1, C1, C2. replace (- v - 1 + 1) with (- v) by lia. reflexivity.
  - assert (N : promote t <> TBool) by apply promote_nb.
    assert (Cv : forall z, conv (promote t) z = z mod 2 ^ iwidth (promote t)) by (intros z; unfold conv; rewrite S; destruct (promote t); congruence || reflexivity).
    f_equal. rewrite !Cv. rewrite Z.mod_mod by (apply Z.pow_nonzero; pose proof (promote_32 t); lia).
    rewrite <- Z.add_mod by (apply Z.pow_nonzero; pose proof (promote_32 t); lia). f_equal. lia.
Qed.
Lemma negate_in_neg b : vec b -> bit_negate_in b = omap bit_mask_off (bit_neg b).
Proof.
  intros V. unfold bit_negate_in, bit_neg. destruct (vec_cases b V) as [(v & E & N & I & S) | (ws & E & _)]; rewrite E; [|reflexivity].
  cbn zeta. rewrite bw_bsize in *. rewrite negate_step by exact I. unfold c_neg. cbn zeta. 
  destruct (arith _ _); reflexivity.
Qed.
Lemma negate_in_spec b n s : 1 <= n <= 64 -> typed b n s ->
  (s = true -> 17 <= n -> tidy b /\ (n = 32 \/ n = 64 -> snum b <> - 2 ^ (n - 1))) ->
  exists r, bit_negate_in b = Ok r /\ typed r n s /\ num r = (- num b) mod 2 ^ n /\ (s = false -> tidy r).
Proof.
  intros Hn T C. destruct (negation b n s Hn T C) as (r & E & Tr & N). rewrite negate_in_neg by (eapply typed_vec; eassumption). rewrite E. cbn [omap bind].
  destruct (bit_mask_off_spec r n s ltac:(lia) Tr) as (Tm & Nm & Ym). eexists. split; [reflexivity|]. split; [exact Tm|]. split; [congruence|]. intros Hs. apply Ym. now left.
Qed.
Lemma negate_in_min b n : n = 32 \/ n = 64 -> typed b n true -> tidy b -> snum b = - 2 ^ (n - 1) -> bit_negate_in b = UB.
Proof.
  intros Hn T Y N. rewrite negate_in_neg by (eapply typed_vec; eassumption). rewrite (neg_ub b n Hn T); [reflexivity|].
  rewrite <- N. apply tidy_s_stored; try (eapply typed_vec; eassumption); try (eapply typed_sgn; eassumption); try exact Y; rewrite (typed_bw b n true ltac:(lia) T); lia.
Qed.
Lemma negate_in_big b : vec b -> 65 <= bw b -> bit_negate_in b = IllFormed.
Proof. intros V H. rewrite negate_in_neg, negation_rejected by assumption. reflexivity. Qed.

(** * comparing a 4-state with a 2-state vector *)
Lemma cmp_bit_spec a b n s : 1 <= n -> ltyped a n s -> typed b n s -> ltidy a -> tidy b -> seen a -> (s = true -> 2 <= n <= 64) ->
  forall lop (z : Z -> Z -> bool), In (lop, z) [(logic_eq, Z.eqb); (logic_ne, fun x y => negb (x =? y)); (logic_lt, Z.ltb); (logic_gt, Z.gtb); (logic_le, Z.leb); (logic_ge, Z.geb)] ->
  exists r, logic_cmp_bit lop a b = Ok r /\ ltyped r 1 false /\
    (~ known a -> sym_at r 0 = SX) /\ (known a -> sym_at r 0 = sym_of_bool (z (value (l_val a)) (value b))).
Proof.
  intros Hn Ta Tb [Ya Yx] Yb Sn Sg lop z I. pose proof Ta as [Ta1 _]. pose proof (LogicProofs.ltyped_lvec _ _ _ Ta) as La.
  pose proof (of_bit_lvec b (proj1 Tb)) as (Lb & Tx & Kb & Sb).
  assert (B : exists bop, In (lop, bop) [(logic_eq, bit_eq); (logic_ne, bit_ne); (logic_lt, bit_lt); (logic_gt, bit_gt); (logic_le, bit_le); (logic_ge, bit_ge)] /\
    bop (l_val a) b = Ok (z (value (l_val a)) (value b))).
  { pose proof (LawProofs.eq_same (l_val a) b n s Hn Ta1 Tb Ya Yb Sg) as E. destruct (order_same (l_val a) b n s Hn Ta1 Tb Ya Yb Sg) as (O1 & O2 & O3 & O4).
    assert (V : (num (l_val a) =? num b) = (value (l_val a) =? value b)) by (pose proof (value_inj (l_val a) b n s Hn Ta1 Tb); lia).
    rewrite V in E. cbn [In] in I. destruct I as [I|[I|[I|[I|[I|[I|[]]]]]]]; injection I as <- <-.
    - exists bit_eq. cbn [In]. tauto.
    - exists bit_ne. cbn [In]. rewrite inequality, E. cbn [omap bind]. tauto.
    - exists bit_lt. cbn [In]. rewrite O2. tauto.
    - exists bit_gt. cbn [In]. rewrite O1, Z.gtb_ltb. tauto.
    - exists bit_le. cbn [In]. rewrite O4. tauto.
    - exists bit_ge. cbn [In]. rewrite O3, Z.geb_leb. tauto. }
  destruct B as (bop & Ib & B). unfold logic_cmp_bit. destruct Ta as [(_ & [P1 P2] & P3) Ta2]. pose proof Tb as (_ & [Q1 Q2] & Q3).
  replace (lmsb a) with (bmsb b) by (unfold lmsb; congruence). replace (llsb a) with (blsb b) by (unfold llsb; congruence). replace (lsgn a) with (bsgn b) by (unfold lsgn; congruence).
  rewrite of_bit_same. cbn [bind]. set (lb := mkLogic b (bit_zero (bmsb b) (blsb b) false)) in *.
  destruct (lcmp_unknown lop bop Ib a lb La Lb Yx Tx Sn Sb) as [U K].
  destruct (bit_any_set (l_xz a)) eqn:D.
  - assert (~ known a) by (apply (any_xz_unknown a La Yx Sn); exact D). destruct U as (r & E & Tr & S); [auto|cbn [lb l_val]; congruence|].
    exists r. split; [exact E|]. split; [exact Tr|]. split; [auto|tauto].
  - assert (known a) by (apply (any_xz a La Yx Sn); exact D). destruct (K H Kb _ B) as (r & E & Tr & S).
    exists r. split; [exact E|]. split; [exact Tr|]. split; [tauto|auto].
Qed.
Lemma match_bit_spec a b n s : 1 <= n -> ltyped a n s -> typed b n s -> ltidy a -> tidy b -> (s = true -> 2 <= n <= 64) ->
  exists c, logic_match_bit a b = Ok c /\ logic_nmatch_bit a b = Ok (negb c) /\
    (c = true <-> forall p, 0 <= p < n -> sym_at a p = sym_of_bool (bit_at b p)).
Proof.
  intros Hn Ta Tb Ya Yb Sg. unfold logic_nmatch_bit, logic_match_bit.
  pose proof Ta as [(_ & [P1 P2] & P3) _]. pose proof Tb as (_ & [Q1 Q2] & Q3).
  replace (lmsb a) with (bmsb b) by (unfold lmsb; congruence). replace (llsb a) with (blsb b) by (unfold llsb; congruence). replace (lsgn a) with (bsgn b) by (unfold lsgn; congruence).
  rewrite of_bit_same. cbn [bind]. set (lb := mkLogic b (bit_zero (bmsb b) (blsb b) false)) in *.
  assert (Tlb : ltyped lb n s). { split; [exact Tb|]. cbn [lb l_xz]. rewrite Q1, Q2. assert (n < 2 ^ 31). { pose proof (proj1 Tb) as (_ & _ & _ & W). rewrite (typed_bw b n s Hn Tb) in W. exact W. }
    destruct (zero_vec (n - 1) 0 false) as (V & E1 & E2 & E3 & _); [unfold int_ok; lia|unfold int_ok; lia|unfold width; lia|]. split; [exact V|]. split; [split|]; assumption. }
  assert (Ylb : ltidy lb). { split; [exact Yb|]. exact (proj1 (proj2 (of_bit_lvec b (proj1 Tb)))). }
  destruct (lmatch a lb n s Hn Ta Tlb Ya Ylb Sg) as (c & E & I). exists c. rewrite E. split; [reflexivity|]. split; [reflexivity|]. rewrite I.
  assert (S : forall p, sym_at lb p = sym_of_bool (bit_at b p)).
  { intros p. unfold sym_at. cbn [lb l_val l_xz]. assert (N : num (bit_zero (bmsb b) (blsb b) false) = 0). { pose proof (proj1 Tb) as (_ & A & B & C). now destruct (zero_vec (bmsb b) (blsb b) false A B C) as (_ & _ & _ & _ & _ & N & _). }
    unfold bit_at at 2. rewrite N, Z.testbit_0_l. destruct (bit_at b p); reflexivity. }
  split; intros H p Hp; specialize (H p Hp); rewrite S in *; exact H.
Qed.
(** any other bounds, and an unsigned operand of a signed vector, do not compile *)
Lemma cmp_bit_rejected a b op : bmsb b <> lmsb a \/ blsb b <> llsb a \/ (bsgn b = false /\ lsgn a = true) ->
  logic_cmp_bit op a b = IllFormed /\ logic_match_bit a b = IllFormed /\ logic_nmatch_bit a b = IllFormed.
Proof.
  intros H. unfold logic_nmatch_bit, logic_match_bit, logic_cmp_bit.
  assert (E : logic_of_bit (lmsb a) (llsb a) (lsgn a) b = IllFormed); [|now rewrite E].
  unfold logic_of_bit, requires. destruct ((bmsb b =? lmsb a) && (blsb b =? llsb a)) eqn:Q; [|reflexivity].
  destruct H as [H|[H|[H1 H2]]]; [lia|lia|]. unfold bit_convert. rewrite H1, H2. cbn [Bool.eqb]. rewrite andb_false_r. reflexivity.
Qed.
Lemma cmp_bit_counter : exists a b r, ltyped a 5 false /\ typed b 5 true /\ ltidy a /\ tidy b /\ known a /\ num (l_val a) = num b /\
  logic_cmp_bit logic_eq a b = Ok r /\ sym_at r 0 = S0.
Proof. exists (logic_of_arith 4 0 false 31), (bit_of_native 4 0 true (-1)), logic_zero. repeat split; try (vm_compute; (reflexivity || discriminate || congruence)). unfold known. intros p Hp. change (lw _) with 5 in Hp. assert (p = 0 \/ p = 1 \/ p = 2 \/ p = 3 \/ p = 4) as C by lia. destruct C as [->|[->|[->|[->| ->]]]]; reflexivity. Qed.

(** * changing the declared bounds *)
Lemma rebound_rejected msb lsb s l : lvec l -> lmsb l <> msb \/ llsb l <> lsb -> logic_rebound msb lsb s l = IllFormed.
Proof.
  intros (_ & _ & A & B & C) H. unfold logic_rebound.
  replace ((lmsb l =? msb) && (llsb l =? lsb) && Bool.eqb (lsgn l) s) with false by lia.
  unfold requires. destruct (lsize l =? vsize msb lsb); [|reflexivity].
  assert (M : bit_convert msb lsb false (l_xz l) = IllFormed).
  { unfold bit_convert. rewrite C. unfold lmsb, llsb in *. rewrite A, B. replace ((bmsb (l_val l) =? msb) && (blsb (l_val l) =? lsb)) with false by lia. reflexivity. }
  unfold bit_convert at 1. destruct ((bmsb (l_val l) =? msb) && (blsb (l_val l) =? lsb) && Bool.eqb (bsgn (l_val l)) s) eqn:Q; cbn [bind]; [now rewrite M|].
  destruct (bsgn (l_val l)); [|reflexivity]. destruct (holder_assign _ _ _) eqn:Hh; cbn [bind]; rewrite ?M; try reflexivity.
  all: exfalso; unfold holder_assign in Hh; repeat match type of Hh with context [if ?c then _ else _] => destruct c | context [match bval ?c with _ => _ end] => destruct (bval c) end; discriminate.
Qed.
Lemma rebound_same l : logic_rebound (lmsb l) (llsb l) (lsgn l) l = Ok l.
Proof. unfold logic_rebound. rewrite !Z.eqb_refl, Bool.eqb_reflx. reflexivity. Qed.
Lemma negate_in_tidy b n s : 1 <= n <= 64 -> typed b n s -> tidy b -> ~ (s = true /\ (n = 32 \/ n = 64) /\ snum b = - 2 ^ (n - 1)) ->
  exists r, bit_negate_in b = Ok r /\ typed r n s /\ num r = (- num b) mod 2 ^ n /\ (s = false -> tidy r).
Proof. intros Hn T Y M. apply negate_in_spec; auto. intros Hs _. split; [exact Y|]. intros N E. apply M. auto. Qed.
