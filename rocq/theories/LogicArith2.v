(** Lemmas about 4-state arithmetic, increments and unary operators. *)
From Coq Require Import ZArith List Bool Lia.
From Verif Require Import Cpp BigNum Bit Logic Spec ZBits Words BigNumProofs BigArith BitProofs BitSlice BitExt BitOps
  BitShift BitCmp BitArith BitMain BitMain2 BitMain3 BitMain4 BitMain5 LogicProofs LogicOps LogicRed LogicArith.
Import ListNotations.
Open Scope Z_scope.

(** the five operators with their 2-state counterparts; the flag marks division *)
Inductive arith_pair : bool -> (logic -> logic -> outcome logic) -> (bit -> bit -> outcome bit) -> Prop :=
  | AP_add : arith_pair false logic_add bit_add
  | AP_sub : arith_pair false logic_sub bit_sub
  | AP_mul : arith_pair false logic_mul bit_mul
  | AP_div : arith_pair true logic_div bit_div
  | AP_rem : arith_pair true logic_rem bit_rem.
Lemma pair_arith d lop bop : arith_pair d lop bop -> exists same, bop = bit_arith same /\ lop = logic_arith d bop.
Proof. intros []; eexists; split; reflexivity. Qed.

(** * no unsigned instantiation is rejected *)
Lemma noill_omap {A B} (f : A -> B) m : noill m -> noill (omap f m).
Proof. intros H. apply noill_bind; [exact H|]. intros. apply noill_ok. Qed.
Lemma noill_ofold {A B} (f : B -> A -> outcome B) l : (forall b a, noill (f b a)) -> forall b, noill (ofold f l b).
Proof. intros H. induction l as [|x l IH]; intros b; cbn; [apply noill_ok|]. apply noill_bind; auto. Qed.
Lemma noill_put ws i v : noill (word_put ws i v). Proof. unfold word_put. now destruct (_ && _). Qed.
Lemma noill_mul n x y : noill (bn_mul n x y).
Proof.
  unfold bn_mul. destruct (_ && _).
  - apply noill_bind; intros; apply noill_put.
  - apply noill_ofold. intros b a. destruct (_ =? 0); [apply noill_ok|]. apply noill_ofold. intros b' a'. unfold bn_mul_step.
    destruct (_ =? 0); [apply noill_ok|]. apply noill_bind.
    + destruct (_ <? _); [|apply noill_ok]. apply noill_bind; [apply noill_put|intros; apply noill_ok].
    + intros r. destruct (_ <? _); [|apply noill_ok]. apply noill_bind; [apply noill_put|intros; apply noill_ok].
Qed.
Lemma noill_divmod n x s y : noill (bn_div_mod n false x s y).
Proof.
  unfold bn_div_mod. destruct (negb _); [apply noill_ok|]. unfold bn_div_mod_unsigned.
  destruct (bn_is_one y); [apply noill_ok|]. destruct (words_eqb x y); [apply noill_ok|]. destruct (bn_ugt _ _ _ _); [apply noill_ok|].
  destruct (_ && _); [|apply noill_ok]. destruct (_ =? 0); [discriminate|apply noill_ok].
Qed.
Lemma noill_bin f g a b n : vec a -> vec b -> bw a = n -> bw b = n -> blsb b <= bmsb b ->
  (forall t1 t2 x y, noill (f t1 t2 x y)) -> (65 <= n -> forall x y, noill (g n x y)) -> noill (bit_bin f g a b).
Proof.
  intros Va Vb Wa Wb D F G. unfold bit_bin, same_size_op. change (bsize a) with (bw a). change (bsize b) with (bw b).
  rewrite Wa, Wb, Z.eqb_refl. cbn [andb]. rewrite (proj2 (Z.leb_le _ _) D). cbn [requires].
  destruct (vec_cases a Va) as [(x & -> & Ra & _)|(x & -> & Ra & _)]; destruct (vec_cases b Vb) as [(y & -> & Rb & _)|(y & -> & Rb & _)]; try lia;
    (apply noill_bind; [first [apply F | apply G; lia]|intros; apply noill_ok]).
Qed.
Lemma noill_cdiv t1 t2 x y : noill (c_div t1 t2 x y). Proof. unfold c_div. destruct (_ =? 0); [discriminate|apply noill_arith]. Qed.
Lemma noill_crem t1 t2 x y : noill (c_rem t1 t2 x y).
Proof. unfold c_rem. destruct (_ =? 0); [discriminate|]. now destruct (in_ity _ _). Qed.
Lemma arith_noill d lop bop a b n : arith_pair d lop bop -> opnd a n -> opnd b n -> (d = true -> 65 <= n -> bsgn a = false) ->
  noill (bop a b).
Proof.
  intros P (Va & Wa & _) (Vb & Wb & Db) S.
  assert (E : bsize a =? bsize b = true). { apply Z.eqb_eq. change (bw a = bw b). congruence. }
  destruct P; unfold bit_add, bit_sub, bit_mul, bit_div, bit_rem, bit_arith; rewrite E;
    unfold bit_add_same, bit_sub_same, bit_mul_same.
  - eapply noill_bin; eauto; intros; [apply noill_arith|apply noill_ok].
  - eapply noill_bin; eauto; intros; [apply noill_arith|apply noill_ok].
  - eapply noill_bin; eauto; intros; [apply noill_arith|apply noill_mul].
  - eapply noill_bin; eauto; intros; [apply noill_cdiv|]. rewrite S by auto. apply noill_omap, noill_divmod.
  - eapply noill_bin; eauto; intros; [apply noill_crem|]. rewrite S by auto. apply noill_omap, noill_divmod.
Qed.

(** * same width *)
Lemma any_val_zero b : vec b -> tidy b -> num b = 0 -> bit_any_set b = false.
Proof. intros V T N. rewrite any_set_iff, N; auto. right. rewrite N. intros _. reflexivity. Qed.
Lemma any_val_nonzero b : vec b -> tidy b -> (bw b <= 64 \/ visible (num b)) -> num b <> 0 -> bit_any_set b = true.
Proof. intros V T C N. rewrite any_set_iff by auto. apply negb_true_iff, Z.eqb_neq. exact N. Qed.

Lemma larith_same_x d op a b n : lopnd a n -> lopnd b n -> tidy (l_xz a) -> tidy (l_xz b) -> seen a -> seen b ->
  noill (op (l_val a) (l_val b)) ->
  (~ known a \/ ~ known b \/ d = true /\ tidy (l_val b) /\ num (l_val b) = 0) ->
  exists r, logic_arith_same d op a b = Ok r /\ ltyped r n (lsgn a && lsgn b) /\ all_x r /\ ltidy r.
Proof.
  intros Oa Ob Ta Tb Sa Sb NI U. unfold logic_arith_same. rewrite (lopnd_lsize a n Oa), (lsame_op b n Ob). cbn [requires].
  assert (Va : lvec a) by apply Oa. assert (Vb : lvec b) by apply Ob.
  assert (bit_any_set (l_xz a) || bit_any_set (l_xz b) || d && negb (bit_any_set (l_val b)) = true) as ->.
  { destruct U as [U|[U|(-> & T & N)]].
    - apply any_xz_unknown in U; auto. now rewrite U.
    - apply any_xz_unknown in U; auto. rewrite U, orb_true_r. reflexivity.
    - rewrite (any_val_zero (l_val b)); [apply orb_true_r|apply Vb|exact T|exact N]. }
  assert (R : 1 <= n < 2 ^ 31). { destruct Oa as (V & <- & _). split; [apply bw_pos|apply V]. }
  destruct (default_typed n (lsgn a && lsgn b) R) as (T & X & D).
  exists (logic_default (n - 1) 0 (lsgn a && lsgn b)). split; [|auto]. destruct (op _ _); try reflexivity. now destruct NI.
Qed.
Lemma larith_same_ok d op a b n v : lopnd a n -> lopnd b n -> tidy (l_xz a) -> tidy (l_xz b) -> seen a -> seen b ->
  known a -> known b -> (d = true -> tidy (l_val b) /\ num (l_val b) <> 0 /\ (n <= 64 \/ visible (num (l_val b)))) ->
  op (l_val a) (l_val b) = Ok v -> typed v n (lsgn a && lsgn b) ->
  exists r, logic_arith_same d op a b = Ok r /\ ltyped r n (lsgn a && lsgn b) /\ known r /\ l_val r = v /\ tidy (l_xz r).
Proof.
  intros Oa Ob Ta Tb Sa Sb Ka Kb HD E T. unfold logic_arith_same. rewrite (lopnd_lsize a n Oa), (lsame_op b n Ob). cbn [requires].
  assert (Va : lvec a) by apply Oa. assert (Vb : lvec b) by apply Ob.
  rewrite (proj2 (any_xz a Va Ta Sa) Ka), (proj2 (any_xz b Vb Tb Sb) Kb). cbn [orb].
  assert (d && negb (bit_any_set (l_val b)) = false) as ->.
  { destruct d; [|reflexivity]. destruct (HD eq_refl) as (T1 & N1 & C1). rewrite any_val_nonzero; auto. apply Vb.
    destruct C1 as [C1|C1]; [left|now right]. destruct Ob as (_ & W & _). unfold lw in W. lia. }
  rewrite E. cbn [bind]. pose proof T as (Vv & (P1 & P2) & Sv). pose proof (of_bit_same v) as F. rewrite P1, P2, Sv in F. rewrite F.
  destruct (of_bit_lvec v Vv) as (L & T' & K & _). rewrite P1, P2 in L, T', K. eexists. split; [reflexivity|].
  split; [|split; [exact K|split; [reflexivity|exact T']]]. split; [exact T|]. cbn [l_xz] in *. split; [apply L|]. split; [|apply L].
  pose proof L as (_ & _ & M1 & M2 & _). cbn [l_xz l_val] in M1, M2. split; congruence.
Qed.

(** * extension of a 4-state operand *)
Lemma lextend l n m s : 1 <= n <= m -> m < 2 ^ 31 -> ltyped l n s -> (n < m -> extendable (l_val l)) -> tidy (l_xz l) ->
  exists l', logic_extend l m = Ok l' /\ ltyped l' m s /\ bit_extend (l_val l) m = Ok (l_val l') /\ (tidy (l_val l) -> tidy (l_val l')) /\ tidy (l_xz l') /\
    num (l_xz l') = num (l_xz l) /\ value (l_val l') = value (l_val l).
Proof.
  intros R M T EE TX. pose proof T as [Tv Tx]. destruct (Z.eq_dec n m) as [<-|NE].
  { exists l. unfold logic_extend. rewrite (ltyped_lsize l n s) by (auto; lia). rewrite Z.leb_refl. cbn [requires].
    rewrite (bit_extend_same (l_val l) n s ltac:(lia) Tv), (bit_extend_same (l_xz l) n false ltac:(lia) Tx). cbn [bind].
    split; [destruct l; reflexivity|]. split; [assumption|]. split; [reflexivity|]. split; [auto|]. split; [assumption|]. split; reflexivity. }
  destruct (EE ltac:(lia)) as [E1 E2]. clear EE.
  destruct (extend_zero (l_xz l) n m R M Tx TX) as (x' & Ex & Tx' & Nx & Dx).
  assert (exists v', bit_extend (l_val l) m = Ok v' /\ typed v' m s /\ tidy v' /\ value v' = value (l_val l)) as (v' & Ev & Tv' & Dv & Nv).
  { destruct s.
    - assert (Sg : bsgn (l_val l) = true) by apply Tv. assert (W : bw (l_val l) = n) by (apply (ltyped_lw l n true); [lia|exact T]).
      pose proof (E2 Sg). destruct (extend_sign (l_val l) n m ltac:(lia) ltac:(lia) Tv E1) as (v' & A & B & C & D). exists v'.
      split; [exact A|]. split; [exact B|]. split; [exact D|]. unfold value. rewrite Sg, (typed_sgn _ _ _ B). exact C.
    - destruct (extend_zero (l_val l) n m R M Tv E1) as (v' & A & B & C & D). exists v'.
      split; [exact A|]. split; [exact B|]. split; [exact D|]. unfold value. rewrite (typed_sgn _ _ _ B), (typed_sgn _ _ _ Tv). exact C. }
  exists (mkLogic v' x'). cbn [l_val l_xz]. unfold logic_extend. rewrite (ltyped_lsize l n s) by (auto; lia).
  rewrite (proj2 (Z.leb_le n m)) by lia. cbn [requires]. rewrite Ev, Ex. cbn [bind]. split; [reflexivity|].
  split; [split; assumption|]. split; [reflexivity|]. auto.
Qed.
Lemma known_num l : lvec l -> (known l <-> num (l_xz l) = 0). Proof. intros V. symmetry. now apply xz_num0. Qed.


Section Mixed.
Variables (d : bool) (lop : logic -> logic -> outcome logic) (bop : bit -> bit -> outcome bit).
Hypothesis P : arith_pair d lop bop.
Variables (a b : logic) (na nb : Z) (sa sb : bool).
Hypothesis Ha : 1 <= na. Hypothesis Hb : 1 <= nb.
Hypothesis Ta : ltyped a na sa. Hypothesis Tb : ltyped b nb sb.
Hypothesis Xa : tidy (l_xz a). Hypothesis Xb : tidy (l_xz b).
Hypothesis Exa : na < nb -> extendable (l_val a). Hypothesis Exb : nb < na -> extendable (l_val b).
Let m := Z.max na nb.
Hypothesis Sa : seen_at a m. Hypothesis Sb : seen_at b m.

Lemma arith_reduce : exists a' b', lop a b = logic_arith_same d bop a' b' /\ ltyped a' m sa /\ ltyped b' m sb /\
  tidy (l_xz a') /\ tidy (l_xz b') /\ num (l_xz a') = num (l_xz a) /\ num (l_xz b') = num (l_xz b) /\
  bop a.(l_val) b.(l_val) = bop (l_val a') (l_val b') /\ value (l_val b') = value (l_val b) /\ (tidy (l_val b) -> tidy (l_val b')).
Proof.
  destruct (pair_arith d lop bop P) as (same & EB & EL).
  assert (M : m < 2 ^ 31). { unfold m. pose proof (ltyped_lw a na sa Ha Ta) as A. pose proof (ltyped_lw b nb sb Hb Tb) as B.
    destruct Ta as ((V & _) & _), Tb as ((V' & _) & _). unfold lw in A, B. destruct V as (_ & _ & _ & V), V' as (_ & _ & _ & V'). lia. }
  pose proof (ltyped_lsize a na sa Ha Ta) as La. pose proof (ltyped_lsize b nb sb Hb Tb) as Lb.
  destruct (Z.eq_dec na nb) as [E|E].
  - assert (Em : m = na) by (unfold m; lia). rewrite Em. exists a, b. split.
    { rewrite EL. unfold logic_arith. rewrite La, Lb, (proj2 (Z.eqb_eq _ _) E). reflexivity. }
    rewrite <- E in Tb. repeat (split; [assumption || reflexivity|]). auto.
  - assert (Ea : na < m -> extendable (l_val a)) by (intros; apply Exa; unfold m in *; lia).
    assert (Eb : nb < m -> extendable (l_val b)) by (intros; apply Exb; unfold m in *; lia).
    destruct (lextend a na m sa ltac:(unfold m; lia) M Ta Ea Xa) as (a' & A1 & A2 & A3 & A4 & A5 & A6 & A7).
    destruct (lextend b nb m sb ltac:(unfold m; lia) M Tb Eb Xb) as (b' & B1 & B2 & B3 & B4 & B5 & B6 & B7).
    exists a', b'. split.
    { rewrite EL. unfold logic_arith. rewrite La, Lb, (proj2 (Z.eqb_neq _ _) E). unfold logic_mixed. rewrite La, Lb. fold m. rewrite A1, B1. reflexivity. }
    split; [exact A2|]. split; [exact B2|]. split; [exact A5|]. split; [exact B5|]. split; [exact A6|]. split; [exact B6|].
    split; [|auto]. rewrite EB. unfold bit_arith. change (bsize (l_val a)) with (lsize a). change (bsize (l_val b)) with (lsize b).
    change (bsize (l_val a')) with (lsize a'). change (bsize (l_val b')) with (lsize b'). assert (1 <= m) by (unfold m; lia).
    rewrite La, Lb, (ltyped_lsize a' m sa), (ltyped_lsize b' m sb), (proj2 (Z.eqb_neq _ _) E), Z.eqb_refl by auto.
    unfold bit_mixed. change (bsize (l_val a)) with (lsize a). change (bsize (l_val b)) with (lsize b). rewrite La, Lb. fold m. rewrite A3, B3. reflexivity.
Qed.
Lemma value_num0 b1 : value b1 = 0 <-> num b1 = 0.
Proof.
  unfold value. destruct (bsgn b1); [|reflexivity]. unfold snum, twos. pose proof (num_range b1). pose proof (bw_pos b1).
  assert (2 ^ bw b1 = 2 * 2 ^ (bw b1 - 1)). { rewrite <- Z.pow_succ_r by lia. f_equal. lia. }
  destruct (Z.testbit (num b1) (bw b1 - 1)) eqn:E; split; intros Z0; try lia. rewrite Z0, Z.bits_0 in E. discriminate.
Qed.
Lemma m_pos : 1 <= m. Proof. unfold m. lia. Qed.

Lemma arith_x : (sa = false \/ d = false \/ m <= 64) ->
  (~ known a \/ ~ known b \/ d = true /\ tidy (l_val b) /\ num (l_val b) = 0) ->
  exists r, lop a b = Ok r /\ ltyped r m (sa && sb) /\ all_x r /\ ltidy r.
Proof.
  intros NI U. destruct arith_reduce as (a' & b' & -> & A2 & B2 & A3 & B3 & A4 & B4 & E & V & Tt). pose proof m_pos as Mp.
  pose proof (ltyped_lopnd a' m sa Mp A2) as Oa. pose proof (ltyped_lopnd b' m sb Mp B2) as Ob.
  pose proof (ltyped_sgn a' m sa A2) as Ga. pose proof (ltyped_sgn b' m sb B2) as Gb.
  destruct (larith_same_x d bop a' b' m Oa Ob A3 B3) as (r & R1 & R2 & R3).
  - unfold seen. rewrite A4, (ltyped_lw a' m sa Mp A2). exact Sa.
  - unfold seen. rewrite B4, (ltyped_lw b' m sb Mp B2). exact Sb.
  - apply (arith_noill d lop bop _ _ m P (lopnd_val _ _ Oa) (lopnd_val _ _ Ob)). intros Dt L.
    destruct NI as [-> | [NI|NI]]; [exact Ga|congruence|lia].
  - rewrite !known_num by (apply Oa || apply Ob). rewrite !known_num, A4, B4 in * by (apply (ltyped_lvec _ _ _ Ta) || apply (ltyped_lvec _ _ _ Tb)).
    destruct U as [U|[U|(U1 & U2 & U3)]]; auto. right. right. split; [exact U1|]. split; [auto|]. apply value_num0. rewrite V. now apply value_num0.
  - rewrite Ga, Gb in R2. exists r. auto.
Qed.
Lemma arith_known v : known a -> known b -> (d = true -> tidy (l_val b) /\ num (l_val b) <> 0 /\ (sb = false /\ visible (num (l_val b)) \/ m <= 64)) ->
  bop (l_val a) (l_val b) = Ok v -> typed v m (sa && sb) ->
  exists r, lop a b = Ok r /\ ltyped r m (sa && sb) /\ known r /\ l_val r = v /\ tidy (l_xz r).
Proof.
  intros Ka Kb HD E T. destruct arith_reduce as (a' & b' & -> & A2 & B2 & A3 & B3 & A4 & B4 & E' & V & Tt). pose proof m_pos as Mp.
  pose proof (ltyped_lopnd a' m sa Mp A2) as Oa. pose proof (ltyped_lopnd b' m sb Mp B2) as Ob.
  pose proof (ltyped_sgn a' m sa A2) as Ga. pose proof (ltyped_sgn b' m sb B2) as Gb.
  rewrite known_num in Ka, Kb by (apply (ltyped_lvec _ _ _ Ta) || apply (ltyped_lvec _ _ _ Tb)).
  rewrite E' in E.
  destruct (larith_same_ok d bop a' b' m v Oa Ob A3 B3) as (r & R1 & R2 & R3); auto.
  - unfold seen. rewrite A4, (ltyped_lw a' m sa Mp A2). exact Sa.
  - unfold seen. rewrite B4, (ltyped_lw b' m sb Mp B2). exact Sb.
  - apply known_num; [apply Oa|congruence].
  - apply known_num; [apply Ob|congruence].
  - intros Dt. destruct (HD Dt) as (H1 & H2 & H3). split; [auto|]. split. { rewrite <- value_num0, V, value_num0. exact H2. }
    destruct H3 as [[-> H3]|H3]; [right|left; exact H3]. unfold value in V. change (bsgn (l_val b')) with (lsgn b') in V. rewrite Gb in V.
    rewrite (typed_sgn _ _ _ (proj1 Tb)) in V. rewrite V. exact H3.
  - rewrite Ga, Gb. exact T.
  - rewrite Ga, Gb in R2. exists r. auto.
Qed.
End Mixed.
