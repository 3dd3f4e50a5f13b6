(** An unsigned 4-state vector compared with a signed 2-state vector of the same range. *)
From Coq Require Import ZArith List Bool Lia Zify ZifyBool.
From Verif Require Import Cpp BigNum Bit Logic More Spec SpecExact SpecMachine SpecWide SpecFour SpecIff SpecIff4 ZBits Words BigNumProofs BitProofs BitExt BitOps BitMain BitMain3 MachineProofs WideProofs WideProofs3 WideProofs4 Reach ReachProofs ReachProofs2 ReachProofs4 FourProofs FourProofs2 FourProofs3 FourProofs4 MachineProg WideProg FourProg BitMain2 LogicProofs LogicMain LogicArith MoreProofs Rest RestProofs LawProofs Iff3 Iff5 Iff6 Iff14 LogicRed LogicRed Iff18 Iff19.
Import ListNotations.
Open Scope Z_scope.
Local Ltac Zify.zify_post_hook ::= idtac.

Lemma received_object b n : 1 <= n -> typed b n true -> tidy b -> let c := object (n - 1) 0 false (stored b) in
  typed c n false /\ num c = num b /\ stored c = received b /\ (clean_copy b -> tidy c /\ received b = num b) /\ (~ clean_copy b -> received b = num b + (2 ^ storage n - 2 ^ n) /\ n < storage n /\ 2 <= n <= 64).
Proof.
  intros Hn T D. pose proof (typed_bw _ _ _ Hn T) as W. pose proof (typed_lt _ _ _ Hn T) as L. pose proof T as (V & _ & Sg). cbn zeta. set (c := object (n - 1) 0 false (stored b)).
  assert (Tc : typed c n false). { split; [apply object_vec; [unfold int_ok; lia|unfold int_ok; lia|rewrite width_n; lia]|split; [split; reflexivity|reflexivity]]. }
  split; [exact Tc|]. pose proof (num_range b) as R. rewrite W in R. destruct (amount_stored b V D) as [S1 S2].
  assert (St : stored c = received b /\ num c = num b).
  { unfold received. rewrite W. destruct (Z.le_gt_cases n 64) as [N|N].
    - assert (NC : num c = stored c mod 2 ^ n) by (unfold num; rewrite (typed_bw _ _ _ Hn Tc); reflexivity). rewrite NC. unfold c. rewrite S2 by lia. rewrite object_small by (rewrite width_n; lia). unfold stored. cbn [bval]. rewrite width_n by lia. unfold store. destruct (Z.eqb_spec n 1) as [E|E].
      + replace (2 <=? n) with false by lia. cbn [andb]. unfold amount. rewrite W. replace (n =? 1) with true by lia. rewrite E in *. change (2 ^ 1) with 2 in *. assert (X : num b = 0 \/ num b = 1) by lia. destruct X as [-> | ->]; split; reflexivity.
      + replace (2 <=? n) with true by lia. replace (n <=? 64) with true by lia. cbn [andb]. unfold amount. rewrite W. replace (n =? 1) with false by lia. destruct (storage_cases n ltac:(lia)) as (B1 & B2 & B3 & _).
        assert (P1 : 2 ^ n <= 2 ^ storage n) by (apply Z.pow_le_mono_r; lia). unfold wrap. unfold value. rewrite Sg. unfold snum, twos. rewrite W. destruct (Z.testbit (num b) (n - 1)) eqn:TB.
        * replace (num b - 2 ^ n <? 0) with true by lia. assert (E1 : (num b - 2 ^ n) mod 2 ^ storage n = num b + (2 ^ storage n - 2 ^ n)).
          { replace (num b - 2 ^ n) with (num b + (2 ^ storage n - 2 ^ n) + (-1) * 2 ^ storage n) by lia. rewrite Z.mod_add by lia. apply Z.mod_small. lia. }
          rewrite E1. split; [reflexivity|]. replace (2 ^ storage n) with (2 ^ (storage n - n) * 2 ^ n) by (rewrite <- Z.pow_add_r by lia; f_equal; lia).
          replace (num b + (2 ^ (storage n - n) * 2 ^ n - 2 ^ n)) with (num b + (2 ^ (storage n - n) - 1) * 2 ^ n) by lia. rewrite Z.mod_add by lia. apply Z.mod_small. exact R.
        * replace (num b <? 0) with false by lia. rewrite Z.mod_small by lia. split; [reflexivity|]. apply Z.mod_small, R.
    - replace (n <=? 64) with false by lia. rewrite andb_false_r. cbn [andb]. assert (E : stored b = num b). { unfold num. rewrite Z.mod_small; [reflexivity|]. unfold tidy in D. destruct (vec_cases b V) as [(v & _ & X & _)|(ws & E & X & _ & St)]; [lia|]. rewrite E, <- St in D. exact D. }
      assert (Nc : num c = num b) by (unfold c; rewrite object_num by (rewrite width_n; lia); rewrite width_n by lia; rewrite E; apply Z.mod_small, R). split; [|exact Nc].
      unfold c. rewrite object_wide by (rewrite width_n; lia). unfold stored at 1. cbn [bval]. rewrite words_of_num by (rewrite width_n; lia). rewrite width_n by lia. rewrite E. apply Z.mod_small. assert (2 ^ n <= 2 ^ capacity n); [|lia]. apply Z.pow_le_mono_r; [lia|]. apply capacity_ge. lia. }
  destruct St as [St Nc]. split; [exact Nc|]. split; [exact St|]. unfold clean_copy. rewrite W. unfold received in *. rewrite W in *. split.
  - intros C. assert (Q : (2 <=? n) && (n <=? 64) && (value b <? 0) = false \/ storage n = n) by lia.
    assert (E : stored c = num b) by (rewrite St; destruct Q as [-> | Q]; [reflexivity|]; destruct (_ && _); [rewrite Q; lia|reflexivity]). split; [apply (tidy_u_iff c n Hn Tc); rewrite E; exact R|congruence].
  - intros C. assert (H : n <= 64) by lia. destruct (Z.eq_dec n 1) as [E|E]; [lia|]. destruct (storage_cases n ltac:(lia)) as (B1 & _). replace ((2 <=? n) && (n <=? 64) && (value b <? 0)) with true by lia. lia.
Qed.

Lemma of_bit_mixed a b n : 1 <= n -> ltyped a n false -> typed b n true ->
  logic_of_bit (lmsb a) (llsb a) (lsgn a) b = Ok (certain (object (n - 1) 0 false (stored b))).
Proof.
  intros Hn Ta Tb. pose proof (typed_lt _ _ _ Hn Tb) as L. destruct Ta as [(_ & [P1 P2] & P3) _], Tb as (V & [Q1 Q2] & Q3). unfold lmsb, llsb, lsgn. rewrite P1, P2, P3.
  rewrite of_bit_four; [|unfold declarable, int_ok; rewrite width_n by lia; lia|exact V]. unfold four_of_bit. rewrite Q1, Q2, Q3, !Z.eqb_refl. reflexivity.
Qed.
Lemma cmp_mixed a b n : 1 <= n -> ltyped a n false -> typed b n true -> ltidy a -> tidy b -> seen a ->
  forall lop z, In (lop, z) comparisons ->
  exists r, logic_cmp_bit lop a b = Ok r /\ ltyped r 1 false /\
    (~ known a -> sym_at r 0 = SX) /\ (known a -> sym_at r 0 = sym_of_bool (z (num (l_val a)) (received b))).
Proof.
  intros Hn Ta Tb [Ya Yx] Yb Sn lop z I. pose proof Ta as [Ta1 _]. pose proof (LogicProofs.ltyped_lvec _ _ _ Ta) as La. destruct (received_object b n Hn Tb Yb) as (Tc & Nc & St & CC & CN). cbn zeta in *.
  unfold logic_cmp_bit. rewrite (of_bit_mixed a b n Hn Ta Tb). cbn [bind]. set (c := object (n - 1) 0 false (stored b)) in *.
  assert (Cl : certain c = mkLogic c (bit_zero (bmsb c) (blsb c) false)) by (unfold certain; rewrite zero_object; reflexivity). rewrite Cl.
  pose proof (LogicArith.of_bit_lvec c (proj1 Tc)) as (Lb & Tx & Kb & Sb).
  pose proof (typed_bw _ _ _ Hn Ta1) as Wa. pose proof (typed_bw _ _ _ Hn Tc) as Wc. pose proof (num_range (l_val a)) as Ra. rewrite Wa in Ra.
  assert (B : exists bop, In (lop, bop) [(logic_eq, bit_eq); (logic_ne, bit_ne); (logic_lt, bit_lt); (logic_gt, bit_gt); (logic_le, bit_le); (logic_ge, bit_ge)] /\
    bop (l_val a) c = Ok (z (num (l_val a)) (received b))).
  { assert (D : clean_copy b \/ ~ clean_copy b) by (unfold clean_copy; lia). destruct D as [D|D].
    - destruct (CC D) as [Yc Nr]. rewrite Nr, <- Nc. assert (Sf : false = true -> 2 <= n <= 64) by discriminate.
      pose proof (LawProofs.eq_same (l_val a) c n false Hn Ta1 Tc Ya Yc Sf) as E. destruct (order_same (l_val a) c n false Hn Ta1 Tc Ya Yc Sf) as (O1 & O2 & O3 & O4).
      unfold value in O1, O2, O3, O4. rewrite (proj2 (proj2 Ta1)), (proj2 (proj2 Tc)) in O1, O2, O3, O4.
      unfold comparisons in I. cbn [In] in I. destruct I as [I|[I|[I|[I|[I|[I|[]]]]]]]; injection I as <- <-.
      + exists bit_eq. cbn [In]. tauto.
      + exists bit_ne. cbn [In]. rewrite inequality, E. cbn [omap bind]. tauto.
      + exists bit_lt. cbn [In]. rewrite O2. tauto.
      + exists bit_gt. cbn [In]. rewrite O1, Z.gtb_ltb. tauto.
      + exists bit_le. cbn [In]. rewrite O4. tauto.
      + exists bit_ge. cbn [In]. rewrite O3, Z.geb_leb. tauto.
    - destruct (CN D) as (Rc & Ls & N). rewrite <- St in *. clearbody c. destruct (storage_cases n ltac:(lia)) as (B1 & B2 & B3 & _).
      assert (Sa : stored (l_val a) = num (l_val a)) by (symmetry; apply num_of_tidy; [exact Ya|apply Ta1]).
      pose proof (num_range b) as Rb. rewrite (typed_bw _ _ _ Hn Tb) in Rb. assert (2 ^ n <= 2 ^ storage n) by (apply Z.pow_le_mono_r; lia). assert (2 ^ storage n <= 2 ^ 64) by (apply Z.pow_le_mono_r; lia).
      assert (Ma : stored (l_val a) mod 2 ^ 64 = num (l_val a)) by (rewrite Sa; apply Z.mod_small; lia).
      assert (Mc : stored c mod 2 ^ 64 = stored c) by (apply Z.mod_small; lia).
      assert (Sm : small (l_val a) = true /\ small c = true) by (unfold small; rewrite Wa, Wc; lia). destruct Sm as [Sm1 Sm2].
      assert (Bs : both_signed (l_val a) c = false) by (unfold both_signed; rewrite (proj2 (proj2 Ta1)); reflexivity).
      assert (E : bit_eq (l_val a) c = Ok (num (l_val a) =? stored c)).
      { rewrite eq_any by (apply Ta1 || apply Tc). unfold any_equal. rewrite Sm1, Sm2. cbn [andb]. unfold equal_native. rewrite Sa, Wa, (proj2 (proj2 Ta1)). unfold store, wrap. replace (n =? 1) with false by lia. rewrite (Z.mod_small (stored c)) by lia. reflexivity. }
      assert (O : forall cmp wide, any_order cmp wide (l_val a) c = Ok (cmp (num (l_val a)) (stored c))).
      { intros cmp wide. unfold any_order. rewrite Sm1, Sm2. unfold ordered. rewrite Bs, Ma, Mc. reflexivity. }
      unfold comparisons in I. cbn [In] in I. destruct I as [I|[I|[I|[I|[I|[I|[]]]]]]]; injection I as <- <-.
      + exists bit_eq. cbn [In]. tauto.
      + exists bit_ne. cbn [In]. rewrite inequality, E. cbn [omap bind]. tauto.
      + exists bit_lt. cbn [In]. rewrite lt_any by (apply Ta1 || apply Tc). unfold any_less. rewrite O. tauto.
      + exists bit_gt. cbn [In]. rewrite gt_any by (apply Ta1 || apply Tc). unfold any_greater. rewrite O. tauto.
      + exists bit_le. cbn [In]. rewrite le_any by (apply Ta1 || apply Tc). unfold any_less_equal. rewrite O. tauto.
      + exists bit_ge. cbn [In]. rewrite ge_any by (apply Ta1 || apply Tc). unfold any_greater_equal. rewrite O. tauto. }
  destruct B as (bop & Ib & B). set (lb := mkLogic c (bit_zero (bmsb c) (blsb c) false)) in *.
  destruct (lcmp_unknown lop bop Ib a lb La Lb Yx Tx Sn Sb) as [U K].
  destruct (bit_any_set (l_xz a)) eqn:D.
  - assert (~ known a) by (apply (any_xz_unknown a La Yx Sn); exact D). destruct U as (r & E & Tr & S1); [auto|cbn [lb l_val]; congruence|].
    exists r. split; [exact E|]. split; [exact Tr|]. split; [auto|tauto].
  - assert (H : known a) by (apply (any_xz a La Yx Sn); exact D). destruct (K H Kb _ B) as (r & E & Tr & S1).
    exists r. split; [exact E|]. split; [exact Tr|]. split; [tauto|auto].
Qed.
Lemma sym_of_bool_inj x y : sym_of_bool x = sym_of_bool y -> x = y. Proof. destruct x, y; (reflexivity || discriminate). Qed.
(** which of the six answers are right *)
Lemma cmp_mixed_iff a b n : 1 <= n -> ltyped a n false -> typed b n true -> ltidy a -> tidy b -> seen a ->
  forall lop z, In (lop, z) comparisons ->
  (exists r, logic_cmp_bit lop a b = Ok r /\ (~ known a -> sym_at r 0 = SX) /\ (known a -> sym_at r 0 = sym_of_bool (z (num (l_val a)) (num b)))) <->
  (known a -> clean_copy b \/ z (num (l_val a)) (num b) = z (num (l_val a)) (num b + (2 ^ storage n - 2 ^ n))).
Proof.
  intros Hn Ta Tb Ya Yb Sn lop z I. destruct (cmp_mixed a b n Hn Ta Tb Ya Yb Sn lop z I) as (r & E & _ & U & K). destruct (received_object b n Hn Tb Yb) as (_ & _ & _ & CC & CN).
  assert (X : clean_copy b \/ ~ clean_copy b) by (unfold clean_copy; lia). rewrite E. split.
  - intros (r' & E' & _ & Q) H. injection E' as <-. destruct X as [X|X]; [auto|right]. specialize (Q H). rewrite (K H) in Q. apply sym_of_bool_inj in Q. rewrite (proj1 (CN X)) in Q. symmetry. exact Q.
  - intros Q. exists r. split; [reflexivity|]. split; [exact U|]. intros H. rewrite (K H). f_equal. destruct X as [X|X]; [now rewrite (proj2 (CC X))|]. destruct (Q H) as [Y|Y]; [tauto|]. rewrite (proj1 (CN X)). symmetry. exact Y.
Qed.
Lemma match_mixed_iff a b n : 1 <= n -> ltyped a n false -> typed b n true -> ltidy a -> tidy b ->
  (exists c, logic_match_bit a b = Ok c /\ logic_nmatch_bit a b = Ok (negb c) /\ (c = true <-> forall p, 0 <= p < n -> sym_at a p = sym_of_bool (bit_at b p))) <->
  clean_copy b \/ ~ (forall p, 0 <= p < n -> sym_at a p = sym_of_bool (bit_at b p)).
Proof.
  intros Hn Ta Tb Ya Yb. destruct (received_object b n Hn Tb Yb) as (Tc & Nc & St & CC & CN). cbn zeta in *. unfold logic_nmatch_bit.
  assert (M : logic_match_bit a b = logic_match_bit a (object (n - 1) 0 false (stored b))).
  { unfold logic_match_bit. rewrite (of_bit_mixed a b n Hn Ta Tb). pose proof Ta as [(_ & [P1 P2] & P3) _]. unfold lmsb, llsb, lsgn. rewrite P1, P2, P3.
    pose proof (of_bit_same (object (n - 1) 0 false (stored b))) as Q. cbn [object bmsb blsb bsgn] in Q |- *. rewrite Q. cbn [bind]. unfold certain. cbn [object bmsb blsb]. rewrite zero_object. reflexivity. }
  rewrite M. set (c := object (n - 1) 0 false (stored b)) in *. assert (Bc : forall p, bit_at c p = bit_at b p) by (intros p; unfold bit_at; now rewrite Nc).
  assert (X : clean_copy b \/ ~ clean_copy b) by (unfold clean_copy; lia). destruct X as [X|X].
  - destruct (CC X) as [Yc _]. destruct (match_bit_spec a c n false Hn Ta Tc Ya Yc ltac:(discriminate)) as (r & E & E' & Q). split; [auto|]. intros _. exists r. rewrite E. split; [reflexivity|]. split; [reflexivity|]. rewrite Q. split; intros H p P; specialize (H p P); rewrite Bc in *; exact H.
  - destruct (CN X) as (Rc & Ls & N). assert (E : logic_match_bit a c = Ok false).
    { assert (Wa : bw (l_val a) = n) by (apply (typed_bw _ _ _ Hn (proj1 Ta))). assert (Wx : bw (l_xz a) = n) by (apply (typed_bw _ _ _ Hn (proj2 Ta))). assert (Wc : bw c = n) by (apply (typed_bw _ _ _ Hn Tc)).
      pose proof (num_range (l_val a)) as Ra. rewrite Wa in Ra. pose proof (num_range b) as Rb. rewrite (typed_bw _ _ _ Hn Tb) in Rb. destruct (storage_cases n ltac:(lia)) as (B1 & B2 & B3 & _).
      assert (P1 : 2 ^ (n + 1) <= 2 ^ storage n) by (apply Z.pow_le_mono_r; lia). rewrite Z.pow_add_r in P1 by lia. change (2 ^ 1) with 2 in P1.
      unfold logic_match_bit. pose proof Ta as [(_ & [Q1 Q2] & Q3) _]. unfold lmsb, llsb, lsgn. rewrite Q1, Q2, Q3. pose proof (of_bit_same c) as Q. unfold c in Q at 1 2 3. cbn [object bmsb blsb bsgn] in Q. rewrite Q. cbn [bind]. unfold logic_match. cbn [l_val l_xz].
      rewrite eq_any by (apply Ta || apply Tc). unfold any_equal, small. rewrite Wa, Wc. replace (n <=? 64) with true by lia. cbn [andb]. unfold equal_native. rewrite Wa, (proj2 (proj2 (proj1 Ta))). unfold store, wrap. replace (n =? 1) with false by lia.
      rewrite St, Rc. rewrite Z.mod_small by lia. replace (stored (l_val a)) with (num (l_val a)) by (apply num_of_tidy; [apply Ya|apply Ta]). replace (num (l_val a) =? num b + (2 ^ storage n - 2 ^ n)) with false by lia. cbn [bind].
      assert (Vz : vec (bit_zero (n - 1) 0 false)) by (destruct (zero_vec (n - 1) 0 false) as (V & _); [unfold int_ok; lia|unfold int_ok; lia|rewrite width_n; lia|exact V]).
      rewrite eq_any by (exact Vz || apply Ta). unfold any_equal, small. rewrite Wx. change (bw (bit_zero (bmsb c) (blsb c) false)) with (width (n - 1) 0). rewrite width_n by lia. replace (n <=? 64) with true by lia. reflexivity. }
    rewrite E. split.
    + intros (r & E' & _ & Q). injection E' as <-. right. intros H. apply Q in H. discriminate.
    + intros [H|H]; [tauto|]. exists false. split; [reflexivity|]. split; [reflexivity|]. split; [discriminate|tauto].
Qed.
