(** Lemmas about 4-state unary operators, increments, conversions, slices, concatenation, unpacking and updates. *)
From Coq Require Import ZArith List Bool Lia.
From Verif Require Import Cpp BigNum Bit Logic Spec ZBits Words BigNumProofs BigArith BitProofs BitSlice BitExt BitOps
  BitShift BitCmp BitArith BitMain BitMain2 BitMain3 BitMain4 BitMain5 LogicProofs LogicOps LogicRed LogicArith LogicArith2.
Import ListNotations.
Open Scope Z_scope.

Lemma ltyped_bw l n s : 1 <= n -> ltyped l n s -> bw (l_val l) = n /\ bw (l_xz l) = n.
Proof. intros H T. pose proof (ltyped_lw l n s H T) as W. split; [exact W|]. rewrite lw_lvec; [exact W|apply (ltyped_lvec _ _ _ T)]. Qed.
Lemma bit_at_num a b : num a = num b -> forall p, bit_at a p = bit_at b p. Proof. unfold bit_at. now intros ->. Qed.
Lemma ltyped_lt l n s : 1 <= n -> ltyped l n s -> n < 2 ^ 31.
Proof. intros H T. destruct (ltyped_bw l n s H T) as [<- _]. apply T. Qed.

(** * assignment *)
Lemma assign_id a x n s : 1 <= n -> typed a n s -> typed x n s -> bit_assign a x = Ok x.
Proof.
  intros Hn Ta Tx. unfold bit_assign, holder_assign. rewrite (typed_bsize a n s Hn Ta), (typed_sgn _ _ _ Ta).
  destruct Ta as (_ & [-> ->] & _). destruct (typed_cases x n s Hn Tx) as [(v & -> & N & I) | (ws & -> & N & I)]; cbn [bval]; unfold native_num.
  - replace (n <=? 64) with true by lia. rewrite conv_id by exact I. reflexivity.
  - replace (n <=? 64) with false by lia. unfold bsize, vsize. cbn [bmsb blsb]. replace (Z.abs (n - 1 - 0) + 1) with n by lia. rewrite Z.eqb_refl. reflexivity.
Qed.
Lemma lassign_same dst src n s s2 : 1 <= n -> ltyped dst n s -> ltyped src n s2 ->
  exists r, logic_assign dst src = Ok r /\ ltyped r n s /\ (forall p, 0 <= p -> sym_at r p = sym_at src p) /\
    num (l_val r) = num (l_val src) /\ num (l_xz r) = num (l_xz src) /\ l_xz r = l_xz src.
Proof.
  intros Hn [D1 D2] [S1 S2]. destruct (assign_typed (l_val dst) (l_val src) n s s2 Hn D1 S1) as (v & Ev & Tv & Nv).
  pose proof (assign_id (l_xz dst) (l_xz src) n false Hn D2 S2) as Em.
  exists (mkLogic v (l_xz src)). unfold logic_assign. rewrite Ev, Em. cbn [bind]. split; [reflexivity|]. split; [split; assumption|]. cbn [l_val l_xz].
  split; [|auto]. intros p _. unfold sym_at. cbn [l_val l_xz]. now rewrite (bit_at_num _ _ Nv p).
Qed.
Lemma bit_at_mod a b k p : 0 <= p < k -> num a = num b mod 2 ^ k -> bit_at a p = bit_at b p.
Proof. intros R E. unfold bit_at. rewrite E. apply Z.mod_pow2_bits_low. lia. Qed.
Lemma lassign_widths dst src n m s s2 : 1 <= m -> ltyped dst n s -> ltyped src m s2 ->
  (2 <= n <= 64 -> m <= 64 -> (m < n -> s2 = false /\ ltidy src) ->
     exists r, logic_assign dst src = Ok r /\ ltyped r n s /\
       forall p, 0 <= p < n -> sym_at r p = if p <? m then sym_at src p else S0) /\
  (65 <= n -> m = n -> exists r, logic_assign dst src = Ok r /\ ltyped r n s /\ forall p, 0 <= p < n -> sym_at r p = sym_at src p) /\
  (1 <= n -> m <> n -> 65 <= n \/ 65 <= m -> logic_assign dst src = IllFormed).
Proof.
  intros Hm D S. pose proof D as [D1 D2]. pose proof S as [S1 S2]. split; [|split].
  - intros Hn Hm' C. destruct (assignment (l_val dst) (l_val src) n s m s2 Hm D1 S1) as (A & _). destruct (A Hn Hm') as (v & Ev & Tv & V1 & V2).
    destruct (assignment (l_xz dst) (l_xz src) n false m false Hm D2 S2) as (B & _). destruct (B Hn Hm') as (x & Ex & Tx & X1 & X2).
    exists (mkLogic v x). unfold logic_assign. rewrite Ev, Ex. cbn [bind]. split; [reflexivity|]. split; [split; assumption|].
    intros p Hp. unfold sym_at. cbn [l_val l_xz]. destruct (Z.leb_spec n m).
    + rewrite (proj2 (Z.ltb_lt p m)) by lia. f_equal; eapply bit_at_mod; eauto.
    + destruct (C ltac:(lia)) as (-> & [T1 T2]).
      assert (E1 : extendable (l_val src)) by (split; [exact T1|]; rewrite (typed_sgn _ _ _ S1); discriminate).
      assert (E2 : extendable (l_xz src)) by (split; [exact T2|]; rewrite (typed_sgn _ _ _ S2); discriminate).
      specialize (V2 ltac:(lia) E1). specialize (X2 ltac:(lia) E2). rewrite value_u in V2 by apply S1. rewrite value_u in X2 by apply S2.
      rewrite (bit_at_mod v (l_val src) n p), (bit_at_mod x (l_xz src) n p) by auto.
      destruct (Z.ltb_spec p m); [reflexivity|]. destruct (ltyped_bw src m false Hm S) as [W1 W2]. unfold bit_at.
      pose proof (num_range (l_val src)) as R1. pose proof (num_range (l_xz src)) as R2. rewrite W1 in R1. rewrite W2 in R2.
      rewrite (testbit_small _ m p R1), (testbit_small _ m p R2) by lia. reflexivity.
  - intros Hn ->. destruct (lassign_same dst src n s s2 Hm D S) as (r & A & B & C & _). exists r. split; [exact A|]. split; [exact B|]. intros. apply C. lia.
  - intros Hn NE C. destruct (assignment (l_val dst) (l_val src) n s m s2 Hm D1 S1) as (_ & _ & A). unfold logic_assign. rewrite A; auto.
Qed.

(** * unary minus and plus *)
Lemma lneg a n s : 1 <= n <= 64 -> ltyped a n s -> tidy (l_xz a) ->
  (~ known a -> exists r, logic_neg a = Ok r /\ ltyped r n s /\ all_x r) /\
  (known a -> (s = true -> 17 <= n -> tidy (l_val a) /\ (n = 32 \/ n = 64 -> snum (l_val a) <> - 2 ^ (n - 1))) ->
     exists r, logic_neg a = Ok r /\ ltyped r n s /\ known r /\ num (l_val r) = (- num (l_val a)) mod 2 ^ n).
Proof.
  intros Hn T X. assert (H1 : 1 <= n) by lia. pose proof (ltyped_lvec _ _ _ T) as V. pose proof (ltyped_lw a n s H1 T) as W.
  assert (S : seen a) by (left; lia). pose proof T as [(V1 & [P1 P2] & Sg) T2]. unfold logic_neg. split.
  - intros U. rewrite (proj2 (any_xz_unknown a V X S) U).
    destruct (default_typed n s ltac:(lia)) as (D1 & D2 & _). exists (logic_default (n - 1) 0 s). split; [|auto].
    unfold lmsb, llsb, lsgn. rewrite P1, P2, Sg. assert (NI : noill (bit_neg (l_val a))).
    { unfold bit_neg. destruct (vec_cases (l_val a) V1) as [(v & -> & _)|(ws & -> & Rw & _)]; [|unfold lw in W; lia].
      apply noill_bind; [apply noill_arith|intros; apply noill_ok]. }
    destruct (bit_neg (l_val a)); try reflexivity. now destruct NI.
  - intros K C. rewrite (proj2 (any_xz a V X S) K). destruct (negation (l_val a) n s Hn (proj1 T) C) as (v & Ev & Tv & Nv). rewrite Ev. cbn [bind].
    unfold lmsb, llsb, lsgn. rewrite P1, P2, Sg. unfold logic_of_arith. cbn [l_val l_xz].
    assert (typed (bit_of_arith (n - 1) 0 s 0) n s) as Td.
    { unfold bit_of_arith. replace (vsize (n - 1) 0) with n by (unfold vsize; lia). assert (native_num n = true) as -> by (unfold native_num; lia).
      apply (typed_nat n s 0). lia. }
    destruct (assign_typed _ _ n s s H1 Td Tv) as (w & Ew & Tw & Nw). rewrite Ew. cbn [bind]. eexists. split; [reflexivity|].
    destruct (zero_vec (n - 1) 0 false) as (Z1 & Z2 & Z3 & Z4 & _ & Z5 & _); try (unfold int_ok, width; lia).
    split; [split; [exact Tw|]; cbn [l_xz]; split; [exact Z1|]; split; [split; assumption|exact Z4]|].
    split; [apply known_of_num0; exact Z5|]. cbn [l_val]. congruence.
Qed.
Lemma lneg_rejected a : lvec a -> 65 <= lw a -> logic_neg a = IllFormed.
Proof. intros V W. unfold logic_neg. rewrite negation_rejected by (apply V || exact W). now destruct (bit_any_set _). Qed.
Lemma lplus a : lvec a -> tidy (l_xz a) -> seen a ->
  (known a -> logic_plus a = a) /\
  (~ known a -> let r := logic_plus a in lvec r /\ lmsb r = lmsb a /\ llsb r = llsb a /\ lsgn r = lsgn a /\ all_x r).
Proof.
  intros V X S. unfold logic_plus. split; intros K.
  - now rewrite (proj2 (any_xz a V X S) K).
  - rewrite (proj2 (any_xz_unknown a V X S) K). destruct V as ((_ & A & B & C) & _). destruct (default_x (lmsb a) (llsb a) (lsgn a) A B C) as (D1 & D2 & D3 & D4 & D5 & _).
    cbn zeta. auto.
Qed.

(** * ++ and -- *)
Lemma one_facts : ltyped logic_one 1 false /\ tidy (l_val logic_one) /\ tidy (l_xz logic_one) /\ known logic_one /\ num (l_xz logic_one) = 0.
Proof.
  destruct (sym1_spec S1) as (A & [B1 B2] & _). change (sym1 S1) with logic_one in *. split; [exact A|]. split; [exact B1|]. split; [exact B2|].
  assert (N : num (l_xz logic_one) = 0) by reflexivity. split; [now apply known_of_num0|exact N].
Qed.
Definition step_l (up : bool) : logic -> outcome logic := if up then logic_inc else logic_dec.
Lemma lstep (up : bool) a n s : 2 <= n -> ltyped a n s -> tidy (l_xz a) -> seen a ->
  (~ known a -> exists r, step_l up a = Ok r /\ ltyped r n s /\ all_x r /\ tidy (l_xz r)) /\
  (known a -> exists r, step_l up a = Ok r /\ ltyped r n s /\ tidy (l_xz r) /\ known r /\ num (l_val r) = (num (l_val a) + (if up then 1 else -1)) mod 2 ^ n).
Proof.
  intros Hn T X S. destruct one_facts as (O1 & O2 & O3 & O4 & O5). assert (H1 : 1 <= n) by lia. pose proof (ltyped_lw a n s H1 T) as W.
  assert (M : Z.max n 1 = n) by lia.
  assert (SA : seen_at a (Z.max n 1)) by (rewrite M; unfold seen in S; rewrite W in S; exact S).
  assert (SO : seen_at logic_one (Z.max n 1)) by (right; rewrite O5; intros _; reflexivity).
  assert (EO : 1 < n -> extendable (l_val logic_one)) by (intros _; split; [exact O2|discriminate]).
  assert (G : step_l up a = let! r := (if up then logic_add else logic_sub) a logic_one in logic_assign a r) by (destruct up; reflexivity).
  rewrite G.
  assert (P : arith_pair false (if up then logic_add else logic_sub) (if up then bit_add else bit_sub)) by (destruct up; constructor).
  split; intros K.
  - destruct (arith_x _ _ _ P a logic_one n 1 s false H1 ltac:(lia) T O1 X O3 ltac:(lia) EO SA SO) as (r & E & Tr & Ar & _ & Yr); [auto|auto|].
    rewrite E. cbn [bind]. rewrite M in Tr. destruct (lassign_same a r n s _ H1 T Tr) as (r' & E' & T' & Q & _ & _ & XE). exists r'.
    split; [exact E'|]. split; [exact T'|]. split; [|rewrite XE; exact Yr]. intros p Hp. rewrite Q by lia. apply Ar. rewrite (ltyped_lw _ _ _ H1 T') in Hp. rewrite (ltyped_lw _ _ _ H1 Tr). exact Hp.
  - destruct (step_spec up (l_val a) n s Hn (proj1 T)) as (v & Ev & Tv & Nv).
    assert (exists w, (if up then bit_add else bit_sub) (l_val a) bit_one = Ok w /\ bit_assign (l_val a) w = Ok v) as (w & Ew & Ew').
    { destruct up; unfold bit_inc, bit_dec in Ev; [destruct (bit_add (l_val a) bit_one)|destruct (bit_sub (l_val a) bit_one)]; cbn in Ev; try discriminate; eauto. }
    assert (Tw : typed w n (s && false)).
    { assert (H : exists w', (if up then bit_add else bit_sub) (l_val a) bit_one = Ok w' /\ typed w' n (s && false)).
      { destruct typed_one as (B1 & B2 & _). destruct up.
        - destruct (step_typed true (l_val a) n s Hn (proj1 T)) as (w' & A & B). eauto.
        - destruct (step_typed false (l_val a) n s Hn (proj1 T)) as (w' & A & B). eauto. }
      destruct H as (w' & A & B). rewrite Ew in A. injection A as <-. exact B. }
    destruct (arith_known _ _ _ P a logic_one n 1 s false H1 ltac:(lia) T O1 X O3 ltac:(lia) EO SA SO w K O4) as (r & E & Tr & Kr & Vr & Yr);
      [discriminate|exact Ew|rewrite M; exact Tw|].
    rewrite E. cbn [bind]. rewrite M in Tr. destruct (lassign_same a r n s _ H1 T Tr) as (r' & E' & T' & Q & N1 & N2 & XE). exists r'.
    split; [exact E'|]. split; [exact T'|]. split; [rewrite XE; exact Yr|]. split.
    + apply known_of_num0. rewrite N2. apply known_num; [apply (ltyped_lvec _ _ _ Tr)|exact Kr].
    + rewrite N1, Vr, <- Nv. destruct (assign_typed (l_val a) w n s _ H1 (proj1 T) Tw) as (v' & A & _ & B). rewrite Ew' in A. injection A as <-. now rewrite B.
Qed.
