(** Widening of 4-state vectors and bitwise operators on 4-state operands of different widths and signedness. *)
From Coq Require Import ZArith List Bool Lia Zify ZifyBool.
From Verif Require Import Cpp BigNum Bit Logic Spec SpecExact SpecExact4 ZBits Words BigNumProofs BigArith BitProofs BitSlice BitExt BitOps BitMain LogicProofs LogicOps Exact.
Import ListNotations.
Open Scope Z_scope.

Lemma extend_bits x n s m : 1 <= n < m -> m < 2 ^ 31 -> typed x n s -> tidy x ->
  exists r, bit_extend x m = Ok r /\ typed r m s /\
    forall p, 0 <= p < m -> bit_at r p = if p <? n then bit_at x p else s && (if n =? 1 then false else if n <=? 64 then bit_at x (n - 1) else true).
Proof.
  intros Hn Hm T Ti. pose proof (typed_bw x n s ltac:(lia) T) as W.
  assert (HI : forall p, n <= p -> bit_at x p = false) by (intros p Hp; apply bit_at_high; lia).
  destruct s; cbn [andb].
  2: { destruct (extend_at x n m ltac:(lia) Hm T Ti) as (r & E & Tr & _ & B). exists r. split; [exact E|]. split; [exact Tr|].
       intros p Hp. rewrite B. destruct (Z.ltb_spec p n); [reflexivity|]. apply HI. lia. }
  destruct (Z.eqb_spec n 1) as [->|N1].
  { destruct (extend_single x m ltac:(lia) T) as (r & E & Tr & N). exists r. split; [exact E|]. split; [exact Tr|].
    intros p Hp. unfold bit_at. rewrite N. destruct (Z.ltb_spec p 1); [reflexivity|]. apply HI. lia. }
  destruct (Z.leb_spec n 64) as [L|L].
  - destruct (bit_extend_s x n m ltac:(lia) ltac:(lia) T) as (r & E & Tr & N & _). exists r. split; [exact E|]. split; [exact Tr|].
    pose proof (tidy_snum x n ltac:(lia) T Ti) as Sx.
    intros p Hp. unfold bit_at at 1. rewrite N, Z.mod_pow2_bits_low by lia.
    assert (R : stored x = num x - (if bit_at x (n - 1) then 2 ^ n else 0)).
    { rewrite Sx. unfold snum, twos. rewrite W. unfold bit_at. destruct (Z.testbit (num x) (n - 1)); lia. }
    destruct (Z.ltb_spec p n) as [Q|Q].
    + unfold bit_at, num. rewrite W. now rewrite Z.mod_pow2_bits_low by lia.
    + assert (NR : 0 <= num x < 2 ^ n) by (rewrite <- W; apply num_range).
      assert (PW : 2 ^ n <= 2 ^ p) by (apply pow2_mono; lia).
      rewrite Z.testbit_odd, Z.shiftr_div_pow2 by lia. destruct (bit_at x (n - 1)).
      * replace (stored x / 2 ^ p) with (-1); [reflexivity|]. apply (Z.div_unique_pos _ _ _ (stored x + 2 ^ p)); lia.
      * rewrite Z.div_small by lia. reflexivity.
  - destruct (bit_extend_s_big x n m ltac:(lia) Hm T Ti) as (r & E & Tr & N). exists r. split; [exact E|]. split; [exact Tr|].
    intros p Hp. unfold bit_at. rewrite N.
    assert (NR : 0 <= num x < 2 ^ n) by (rewrite <- W; apply num_range).
    replace (2 ^ m - 2 ^ n) with (2 ^ n * (2 ^ (m - n) - 1)) by (replace m with (n + (m - n)) at 2 by lia; rewrite Z.pow_add_r by lia; ring).
    rewrite (Z.mul_comm (2 ^ n)), Z.add_comm.
    assert (LD : Z.land (num x) (Z.shiftl (2 ^ (m - n) - 1) n) = 0).
    { apply Z.bits_inj'. intros q Hq. rewrite Z.land_spec, Z.shiftl_spec, Z.bits_0 by lia. destruct (Z.ltb_spec q n) as [Q|Q].
      - rewrite (Z.testbit_neg_r _ (q - n)) by lia. apply andb_false_r.
      - replace (num x) with (num x mod 2 ^ n) by (apply Z.mod_small; lia). now rewrite Z.mod_pow2_bits_high by lia. }
    replace ((2 ^ (m - n) - 1) * 2 ^ n + num x) with (Z.lor (num x) (Z.shiftl (2 ^ (m - n) - 1) n))
      by (rewrite lor_disjoint_add by exact LD; rewrite Z.shiftl_mul_pow2 by lia; ring).
    rewrite Z.lor_spec, Z.shiftl_spec, testbit_ones by lia. destruct (Z.ltb_spec p n) as [Q|Q].
    + replace (0 <=? p - n) with false by lia. cbn [andb]. apply orb_false_r.
    + replace ((0 <=? p - n) && (p - n <? m - n)) with true by lia. apply orb_true_r.
Qed.
Lemma logic_extend_any l n s m : 1 <= n <= m -> m < 2 ^ 31 -> ltyped l n s -> ltidy l ->
  exists r, logic_extend l m = Ok r /\ ltyped r m s /\ tidy (l_xz r) /\ forall p, 0 <= p < m -> sym_at r p = widened l n s p.
Proof.
  intros Hn Hm T [D1 D2]. pose proof T as [Tv Tx]. unfold logic_extend. rewrite (ltyped_lsize _ _ _ (proj1 Hn) T).
  destruct (Z.leb_spec n m); [|lia]. cbn [requires].
  destruct (extend_at _ n m Hn Hm Tx D2) as (x & -> & Tx' & Dx & Bx).
  destruct (Z.eq_dec n m) as [<-|Ne].
  { rewrite (bit_extend_same (l_val l) n s ltac:(lia) Tv). cbn [bind]. eexists. split; [reflexivity|]. split; [split; assumption|]. split; [exact Dx|].
    intros p Hp. unfold widened, sym_at. cbn [l_val l_xz]. rewrite Bx. now replace (p <? n) with true by lia. }
  destruct (extend_bits _ n s m ltac:(lia) Hm Tv D1) as (v & -> & Tv' & Bv). cbn [bind].
  eexists. split; [reflexivity|]. split; [split; assumption|]. split; [exact Dx|]. intros p Hp. unfold widened, sym_at. cbn [l_val l_xz].
  rewrite Bv, Bx by lia. destruct (Z.ltb_spec p n) as [L|L]; [reflexivity|].
  rewrite (bit_at_high (l_xz l) p) by (rewrite (typed_bw _ _ _ (proj1 Hn) Tx); assumption). unfold fill.
  destruct s; cbn [andb]; [|reflexivity]. destruct (n =? 1); [reflexivity|]. destruct (n <=? 64); [|reflexivity].
  destruct (bit_at (l_val l) (n - 1)), (bit_at (l_xz l) (n - 1)); reflexivity.
Qed.
Lemma logic_mixed_any op sop a b na nb sa sb : 1 <= na -> 1 <= nb -> ltyped a na sa -> ltyped b nb sb -> ltidy a -> ltidy b -> sa && sb = false ->
  (forall a b n, lopnd a n -> lopnd b n -> lsgn a && lsgn b = false ->
    exists r, op a b = Ok r /\ ltyped r n false /\ (tidy (l_xz a) -> tidy (l_xz b) -> ltidy r) /\ forall p, 0 <= p < n -> sym_at r p = sop (sym_at a p) (sym_at b p)) ->
  exists r, logic_mixed op a b = Ok r /\ ltyped r (Z.max na nb) false /\ ltidy r /\
    forall p, 0 <= p < Z.max na nb -> sym_at r p = sop (widened a na sa p) (widened b nb sb p).
Proof.
  intros Ha Hb Ta Tb Da Db SS H. unfold logic_mixed. rewrite (ltyped_lsize _ _ _ Ha Ta), (ltyped_lsize _ _ _ Hb Tb).
  assert (M : Z.max na nb < 2 ^ 31) by (pose proof (typed_lt _ _ _ Ha (proj1 Ta)); pose proof (typed_lt _ _ _ Hb (proj1 Tb)); lia).
  destruct (logic_extend_any a na sa (Z.max na nb)) as (a' & -> & Ta' & Da' & Sa'); auto; [lia|].
  destruct (logic_extend_any b nb sb (Z.max na nb)) as (b' & -> & Tb' & Db' & Sb'); auto; [lia|]. cbn [bind].
  destruct (H a' b' (Z.max na nb)) as (r & E & Tr & Dr & Sr).
  { apply (ltyped_lopnd _ _ sa); [lia|assumption]. } { apply (ltyped_lopnd _ _ sb); [lia|assumption]. } { now rewrite (ltyped_sgn _ _ _ Ta'), (ltyped_sgn _ _ _ Tb'). }
  exists r. split; [exact E|]. split; [exact Tr|]. split; [now apply Dr|]. intros p Hp. rewrite Sr by assumption. now rewrite Sa', Sb' by lia.
Qed.

(** the tables of the library *)
Lemma and_any a b na nb sa sb : 1 <= na -> 1 <= nb -> na <> nb -> ltyped a na sa -> ltyped b nb sb -> ltidy a -> ltidy b -> sa && sb = false ->
  exists r, logic_and a b = Ok r /\ ltyped r (Z.max na nb) false /\ ltidy r /\ forall p, 0 <= p < Z.max na nb ->
    sym_at r p = lib_and (widened a na sa p) (widened b nb sb p).
Proof.
  intros Ha Hb N Ta Tb Da Db SS. unfold logic_and. rewrite (ltyped_lsize _ _ _ Ha Ta), (ltyped_lsize _ _ _ Hb Tb). replace (na =? nb) with false by lia.
  apply (logic_mixed_any _ lib_and); auto.
  intros a' b' n A B S. destruct (and_same_spec a' b' n A B S) as (r & E & T & D & Q). exists r. do 2 (split; [assumption|]). split; [auto|].
  intros p Hp. rewrite Q by exact Hp. destruct (sym_at a' p), (sym_at b' p); reflexivity.
Qed.
Lemma or_any a b na nb sa sb : 1 <= na -> 1 <= nb -> na <> nb -> ltyped a na sa -> ltyped b nb sb -> ltidy a -> ltidy b -> sa && sb = false ->
  exists r, logic_or a b = Ok r /\ logic_xor a b = Ok r /\ ltyped r (Z.max na nb) false /\ ltidy r /\ forall p, 0 <= p < Z.max na nb ->
    sym_at r p = lib_or (widened a na sa p) (widened b nb sb p).
Proof.
  intros Ha Hb N Ta Tb Da Db SS. unfold logic_or, logic_xor. rewrite (ltyped_lsize _ _ _ Ha Ta), (ltyped_lsize _ _ _ Hb Tb). replace (na =? nb) with false by lia.
  destruct (logic_mixed_any logic_or_same lib_or a b na nb sa sb) as (r & E & R); auto.
  2: { exists r. split; [exact E|]. split; [exact E|]. exact R. }
  intros a' b' n A B S. destruct (or_same_spec a' b' n A B S) as (r & E & T & D & Q). exists r. do 2 (split; [assumption|]). split; [auto|].
  intros p Hp. rewrite Q by exact Hp. destruct (sym_at a' p), (sym_at b' p); reflexivity.
Qed.
