(** Lemmas about the members of Rest.v: indexing by a vector, copying, construction, field widths. *)
From Coq Require Import ZArith List Bool Lia Zify ZifyBool String.
Local Open Scope list_scope.
From Verif Require Import Cpp BigNum Bit Logic Arr Util More Rest Spec SpecArr SpecExact ZBits Words BigNumProofs BigArith BitProofs BitSlice BitExt BitOps BitShift BitArith BitMain BitMain2 BitMain3 BitCmp BitMain4 BitMain5.
From Verif Require Import LogicProofs LogicOps LogicRed LogicArith LogicConv LogicConv2 LogicMain ArrProofs BigObj SpecBig BigObjProofs BigObjProofs2 BigObjProofs3 SpecText TextProofs FmtProofs FmtMain FmtDec.
Import ListNotations.
Open Scope Z_scope.

(** * indexing by a vector *)
Lemma index_sub t v : in_ity t v = true -> exists i, c_sub t TI32 v 0 = Ok i /\ conv TI32 i = i32 v.
Proof.
  intros I. unfold c_sub. cbn zeta. assert (C0 : conv (uac t TI32) 0 = 0) by (destruct t; reflexivity). rewrite C0, Z.sub_0_r.
  assert (M : conv TI32 (conv (uac t TI32) v) = i32 v).
  { unfold i32. change (conv TI32 ?z) with (swrap 32 z). assert (E : conv (uac t TI32) v mod 2 ^ 32 = v mod 2 ^ 32) by (apply conv_mod; [apply uac_nb|pose proof (uac_32 t TI32); lia]).
    unfold swrap. rewrite <- Zplus_mod_idemp_l, E, Zplus_mod_idemp_l. reflexivity. }
  exists (conv (uac t TI32) v). split; [|exact M]. unfold arith. pose proof (conv_in_ity (uac t TI32) v) as R.
  destruct (isigned (uac t TI32)) eqn:S; [now rewrite R|]. f_equal. apply in_ity_range in R. rewrite S in R. apply Z.mod_small. exact R.
Qed.
Lemma get_at_raw l op : lvec l -> zero_based l -> lw l <= 64 -> vec op -> bw op <= 64 -> logic_get_at l op = logic_get l (i32 (stored op)).
Proof.
  intros L Z0 Hl V Ho. unfold logic_get_at, requires. change (lsize l) with (lw l). unfold native_num. rewrite (proj2 (Z.leb_le _ _) Hl).
  destruct (vec_cases op V) as [(v & E & N & I & S) | (ws & E & N & _)]; [|lia]. rewrite E, S. unfold zero_based in Z0. rewrite Z0.
  destruct (index_sub _ _ I) as (i & Ei & Ci). rewrite bw_bsize in Ei. rewrite Ei. cbn [bind]. now rewrite Ci.
Qed.
Lemma i32_high v : 2 ^ 31 <= v < 2 ^ 32 -> i32 v < 0.
Proof. intros H. unfold i32, swrap. change (2 ^ (32 - 1)) with (2 ^ 31). rewrite <- (Z.mod_unique (v + 2 ^ 31) (2 ^ 32) 1 (v + 2 ^ 31 - 2 ^ 32)) by lia. lia. Qed.
Lemma get_at_spec l op : lvec l -> Z.min (lmsb l) (llsb l) = 0 -> lw l <= 64 -> vec op -> bw op <= 64 -> tidy op -> (bsgn op = true -> 2 <= bw op) ->
  - 2 ^ 31 <= value op < 2 ^ 32 ->
  exists r, logic_get_at l op = Ok r /\ ltyped r 1 false /\
    (in_range (lmsb l) (llsb l) (value op) -> sym_at r 0 = sym_at l (place (lmsb l) (llsb l) (value op))) /\
    (~ in_range (lmsb l) (llsb l) (value op) -> sym_at r 0 = SX).
Proof.
  intros L Z0 Hl V Ho T S R. rewrite get_at_raw by assumption. rewrite (tidy_value op V T Ho S).
  assert (W : lw l = Z.max (lmsb l) (llsb l) + 1). { unfold lw, bw, width. fold (lmsb l) (llsb l). lia. }
  destruct (Z.ltb_spec (value op) (2 ^ 31)) as [Lo|Hi].
  - rewrite i32_id by lia. assert (D : in_range (lmsb l) (llsb l) (value op) \/ ~ in_range (lmsb l) (llsb l) (value op)) by (unfold in_range; lia). destruct D as [D|D].
    + rewrite (logic_get_spec l (value op) L Z0 D). rewrite (proj2 (Z.leb_gt _ _)) by (unfold in_range in D; lia). rewrite andb_false_r. eexists. split; [reflexivity|].
      destruct (sym1_spec (sym_at l (place (lmsb l) (llsb l) (value op)))) as (T1 & _ & T2). split; [exact T1|]. split; [intros _; exact T2|tauto].
    + rewrite logic_get_outside by exact D. exists (sym1 SX). destruct (sym1_spec SX) as (T1 & _ & T2). repeat split; try tauto; apply T1.
  - pose proof (i32_high (value op) ltac:(lia)). rewrite logic_get_outside by (unfold in_range; lia). exists (sym1 SX). destruct (sym1_spec SX) as (T1 & _ & T2).
    split; [reflexivity|]. split; [exact T1|]. split; [unfold in_range; lia|]. intros _; exact T2.
Qed.
Lemma get_at_rejected l op : lvec l -> vec op -> 65 <= lw l \/ 65 <= bw op -> logic_get_at l op = IllFormed.
Proof.
  intros L V H. unfold logic_get_at, requires. change (lsize l) with (lw l). unfold native_num. destruct (Z.leb_spec (lw l) 64) as [A|A]; [|reflexivity].
  destruct (vec_cases op V) as [(v & E & N & I & S) | (ws & E & N & _)]; [lia|]. now rewrite E.
Qed.
Lemma get_at_counter : (exists l op r, ltyped l 8 false /\ typed op 64 false /\ tidy op /\ value op = 2 ^ 32 /\ logic_get_at l op = Ok r /\ sym_at r 0 = S1) /\
  (exists l op r, lvec l /\ lmsb l = 5 /\ llsb l = 2 /\ typed op 8 false /\ tidy op /\ value op = 2 /\ sym_at l (place 5 2 2) = S1 /\ logic_get_at l op = Ok r /\ sym_at r 0 = SX).
Proof.
  split.
  - exists (logic_of_arith 7 0 false 255), (bit_of_native 63 0 false (2 ^ 32)), logic_one. repeat split; vm_compute; (reflexivity || discriminate || congruence).
  - exists (logic_of_arith 5 2 false 1), (bit_of_native 7 0 false 2), logic_x. repeat split; vm_compute; (reflexivity || discriminate || congruence).
Qed.

(** * copying *)
Lemma copy_count start e : 0 <= start <= e -> e < 2 ^ 31 -> u64 (e - start) = e - start /\ (u64 (e - start) <? 2 ^ 32 - 1) = true.
Proof. intros H1 H2. rewrite Words.u64_id by lia. split; [reflexivity|]. apply Z.ltb_lt. lia. Qed.
Lemma copy_spec2 dst src start e : vec dst -> vec src -> Z.min (bmsb dst) (blsb dst) = 0 -> Z.min (bmsb src) (blsb src) = 0 ->
  0 <= start <= e -> in_range (bmsb src) (blsb src) e -> in_range (bmsb dst) (blsb dst) (e - start) ->
  exists r, bit_copy dst src start e = Ok r /\ vec r /\ bmsb r = bmsb dst /\ blsb r = blsb dst /\ bsgn r = bsgn dst /\ (bsgn dst = false -> tidy dst -> tidy r) /\
    forall i, in_range (bmsb dst) (blsb dst) i -> bit_at r (place (bmsb dst) (blsb dst) i) =
      if i <=? e - start then bit_at src (place (bmsb src) (blsb src) (start + i)) else bit_at dst (place (bmsb dst) (blsb dst) i).
Proof.
  intros Vd Vs Zd Zs H Re Rd. assert (Hs : e < 2 ^ 31). { destruct Vs as (_ & [_ A] & [_ B] & _). unfold in_range in Re. lia. }
  destruct (copy_count start e H Hs) as [Eu Lu]. unfold bit_copy, util_copy. cbn zeta. rewrite Lu, Eu.
  set (Inv := fun k y => vec y /\ bmsb y = bmsb dst /\ blsb y = blsb dst /\ bsgn y = bsgn dst /\ (bsgn dst = false -> tidy dst -> tidy y) /\
    forall i, in_range (bmsb dst) (blsb dst) i -> bit_at y (place (bmsb dst) (blsb dst) i) = if i <? k then bit_at src (place (bmsb src) (blsb src) (start + i)) else bit_at dst (place (bmsb dst) (blsb dst) i)).
  match goal with |- context [ofold ?f _ _] => destruct (zrange_ofold_ind f Inv 0 (e - start + 1) dst) as (r & E & Vr & F1 & F2 & F3 & F4 & Br) end; [lia| | |].
  - repeat (split; [auto|]). intros i Hi. rewrite (proj2 (Z.ltb_ge i 0)) by (unfold in_range in Hi; lia). reflexivity.
  - intros i y Hi (Vy & G1 & G2 & G3 & G4 & By). rewrite Words.u64_id by lia. rewrite i32_id by lia.
    assert (Rs : in_range (bmsb src) (blsb src) (i + start)) by (unfold in_range in *; lia).
    destruct (pos_zero_based src (i + start) Zs Rs) as (P1 & _ & P3). rewrite bit_get_spec by (rewrite ?P1; assumption). rewrite P1. cbn [bind].
    assert (Ri : in_range (bmsb y) (blsb y) i) by (rewrite G1, G2; unfold in_range in *; lia). assert (Zy : Z.min (bmsb y) (blsb y) = 0) by (rewrite G1, G2; exact Zd).
    destruct (pos_zero_based y i Zy Ri) as (_ & Q2 & Q3).
    destruct (bit_set_bit0_spec y i (bit_at src (place (bmsb src) (blsb src) (i + start)))) as (y' & E' & V' & A & B & C & D & T'); [exact Vy|rewrite Z.min_comm; exact Zy|rewrite Q2; exact Q3|].
    exists y'. split; [exact E'|]. rewrite G1, G2, G3 in *. split; [exact V'|]. split; [exact A|]. split; [exact B|]. split; [exact C|]. split. { intros S T. apply T'; auto. }
    assert (Wy : bw y = bw dst) by (unfold bw; now rewrite G1, G2).
    intros j Hj. destruct (pos_zero_based dst j Zd Hj) as (_ & _ & Pj). rewrite D by (rewrite Wy; exact Pj). rewrite Q2.
    destruct (Z.eqb_spec (place (bmsb dst) (blsb dst) j) (place (bmsb dst) (blsb dst) i)) as [Ep|Np].
    + apply BitProofs.place_inj in Ep. subst j. rewrite (proj2 (Z.ltb_lt i (i + 1))) by lia. now rewrite Z.add_comm.
    + rewrite By by exact Hj. assert (j <> i) by congruence. replace (j <? i + 1) with (j <? i) by lia. reflexivity.
  - exists r. split; [exact E|]. repeat (split; [assumption|]). intros i Hi. rewrite Br by exact Hi. replace (i <? e - start + 1) with (i <=? e - start) by lia. reflexivity.
Qed.
Lemma copy_spec4 dst src start e : lvec dst -> lvec src -> Z.min (lmsb dst) (llsb dst) = 0 -> Z.min (lmsb src) (llsb src) = 0 ->
  0 <= start <= e -> in_range (lmsb src) (llsb src) e -> in_range (lmsb dst) (llsb dst) (e - start) ->
  (forall i, start <= i <= e -> 64 <= i -> unknown (sym_at src (place (lmsb src) (llsb src) i)) = false) ->
  exists r, logic_copy dst src start e = Ok r /\ lvec r /\ lmsb r = lmsb dst /\ llsb r = llsb dst /\ lsgn r = lsgn dst /\ (lsgn dst = false -> ltidy dst -> ltidy r) /\
    forall i, in_range (lmsb dst) (llsb dst) i -> sym_at r (place (lmsb dst) (llsb dst) i) =
      if i <=? e - start then sym_at src (place (lmsb src) (llsb src) (start + i)) else sym_at dst (place (lmsb dst) (llsb dst) i).
Proof.
  intros Vd Vs Zd Zs H Re Rd U. assert (Hs : e < 2 ^ 31). { destruct Vs as ((_ & [_ A] & [_ B] & _) & _). unfold in_range, lmsb, llsb in *. lia. }
  destruct (copy_count start e H Hs) as [Eu Lu]. unfold logic_copy, util_copy. cbn zeta. rewrite Lu, Eu.
  set (Inv := fun k y => lvec y /\ lmsb y = lmsb dst /\ llsb y = llsb dst /\ lsgn y = lsgn dst /\ (lsgn dst = false -> ltidy dst -> ltidy y) /\
    forall i, in_range (lmsb dst) (llsb dst) i -> sym_at y (place (lmsb dst) (llsb dst) i) = if i <? k then sym_at src (place (lmsb src) (llsb src) (start + i)) else sym_at dst (place (lmsb dst) (llsb dst) i)).
  match goal with |- context [ofold ?f _ _] => destruct (zrange_ofold_ind f Inv 0 (e - start + 1) dst) as (r & E & Vr & F1 & F2 & F3 & F4 & Br) end; [lia| | |].
  - repeat (split; [auto|]). intros i Hi. rewrite (proj2 (Z.ltb_ge i 0)) by (unfold in_range in Hi; lia). reflexivity.
  - intros i y Hi (Vy & G1 & G2 & G3 & G4 & By). rewrite Words.u64_id by lia. rewrite i32_id by lia.
    assert (Rs : in_range (lmsb src) (llsb src) (i + start)) by (unfold in_range in *; lia).
    rewrite (logic_get_spec src (i + start) Vs Zs Rs). set (s := sym_at src (place (lmsb src) (llsb src) (i + start))).
    assert (Us : unknown s && (64 <=? i + start) = false). { destruct (Z.leb_spec 64 (i + start)); [|apply andb_false_r]. unfold s. rewrite U by lia. reflexivity. }
    rewrite Us. cbn [bind].
    assert (Ri : in_range (lmsb y) (llsb y) i) by (rewrite G1, G2; unfold in_range in *; lia). assert (Zy : zero_based y) by (unfold zero_based; rewrite G1, G2; exact Zd).
    destruct (logic_write_spec y i s Vy Zy Ri) as (y' & _ & E' & V' & A & B & C & D & Q). exists y'. split; [exact E'|]. rewrite G1, G2, G3 in *.
    split; [exact V'|]. split; [exact A|]. split; [exact B|]. split; [exact C|]. split. { intros S T. apply D; auto. }
    intros j Hj. destruct (get_pair dst j Vd Zd Hj) as (Pj & _). assert (Wy : lw y = lw dst) by (unfold lw, bw; fold (lmsb y) (llsb y) (lmsb dst) (llsb dst); now rewrite G1, G2).
    rewrite Q by (rewrite Wy; exact Pj).
    destruct (Z.eqb_spec (place (lmsb dst) (llsb dst) j) (place (lmsb dst) (llsb dst) i)) as [Ep|Np].
    + apply BitProofs.place_inj in Ep. subst j. rewrite (proj2 (Z.ltb_lt i (i + 1))) by lia. unfold s. now rewrite Z.add_comm.
    + rewrite By by exact Hj. assert (j <> i) by congruence. replace (j <? i + 1) with (j <? i) by lia. reflexivity.
  - exists r. split; [exact E|]. repeat (split; [assumption|]). intros i Hi. rewrite Br by exact Hi. replace (i <? e - start + 1) with (i <=? e - start) by lia. reflexivity.
Qed.
(** a range given the wrong way round never completes *)
Lemma copy_reversed A (step : A -> Z -> outcome A) dst start e r : 0 <= e < start -> start < 2 ^ 63 -> util_copy step dst start e <> Ok r.
Proof.
  intros H1 H2. unfold util_copy. cbn zeta. assert (E : u64 (e - start) = e - start + 2 ^ 64). { unfold u64. symmetry. apply Z.mod_unique with (-1); lia. }
  rewrite E. rewrite (proj2 (Z.ltb_ge _ _)) by lia. destruct (ofold _ _ _); cbn [bind]; discriminate.
Qed.

(** * construction *)
Lemma hd_mod ws n : 1 <= n <= 64 -> Forall (fun w => 0 <= w < 2 ^ 64) ws -> hd 0 ws mod 2 ^ n = words_num ws mod 2 ^ n.
Proof.
  intros Hn F. destruct ws as [|w ws]; [reflexivity|]. cbn [hd words_num]. replace (2 ^ 64) with (2 ^ (64 - n) * 2 ^ n) by (rewrite <- Z.pow_add_r by lia; f_equal; lia).
  rewrite <- Z.mul_assoc, (Z.mul_comm (2 ^ n)), Z.mul_assoc, Z.mod_add by (apply Z.pow_nonzero; lia). reflexivity.
Qed.
Lemma of_big_spec msb lsb s x m t : int_ok msb -> int_ok lsb -> 2 <= width msb lsb <= 64 -> is_num x m t ->
  exists r, bit_of_big msb lsb s (n_ws x) = Ok r /\ vec r /\ bmsb r = msb /\ blsb r = lsb /\ bsgn r = s /\ num r = raw x mod 2 ^ width msb lsb.
Proof.
  intros A B W (_ & _ & _ & _ & F). unfold bit_of_big, requires, native_num. change (vsize msb lsb) with (width msb lsb). replace (width msb lsb <=? 64) with true by lia.
  unfold bit_of_native. change (vsize msb lsb) with (width msb lsb). fold (nat_bit msb lsb s (hd 0 (n_ws x))). eexists. split; [reflexivity|]. split; [apply nat_bit_vec; lia || assumption|].
  split; [reflexivity|]. split; [reflexivity|]. split; [reflexivity|]. rewrite nat_bit_num by lia. unfold raw. apply hd_mod; [lia|exact F].
Qed.
Lemma of_big_one msb s x m t : int_ok msb -> is_num x m t ->
  exists r, bit_of_big msb msb s (n_ws x) = Ok r /\ vec r /\ num r = if raw x mod 2 ^ 64 =? 0 then 0 else 1.
Proof.
  intros A (_ & _ & _ & _ & F). assert (W : width msb msb = 1) by (unfold width; lia). unfold bit_of_big, requires, native_num. change (vsize msb msb) with (width msb msb). rewrite W. 
  unfold bit_of_native. fold (nat_bit msb msb s (hd 0 (n_ws x))). eexists. split; [reflexivity|]. unfold vsize. fold (width msb msb). fold (nat_bit msb msb s (hd 0 (n_ws x))). split; [apply nat_bit_vec; lia || assumption|].
  rewrite nat_bit_num1 by exact W. unfold raw. rewrite <- hd_mod by (lia || exact F). rewrite Z.mod_small; [reflexivity|]. destruct F; cbn [hd]; lia.
Qed.
Lemma of_big_rejected msb lsb s ws : 65 <= width msb lsb -> bit_of_big msb lsb s ws = IllFormed.
Proof. intros H. unfold bit_of_big, requires, native_num. change (vsize msb lsb) with (width msb lsb). replace (width msb lsb <=? 64) with false by lia. reflexivity. Qed.
Lemma of_big_counter : exists x, is_num x 70 false /\ raw x mod 2 ^ 1 = 0 /\ exists r, bit_of_big 0 0 false (n_ws x) = Ok r /\ num r = 1.
Proof. exists (num_of_native 70 false 2). split; [cnum|]. split; [reflexivity|]. eexists. split; [reflexivity|]. reflexivity. Qed.
Lemma of_arith_spec msb lsb s v : int_ok msb -> int_ok lsb -> width msb lsb < 2 ^ 31 -> - 2 ^ 63 <= v < 2 ^ 64 ->
  (width msb lsb = 1 -> 0 <= v <= 1) -> (65 <= width msb lsb -> s = true \/ 0 <= v) ->
  let b := bit_of_arith msb lsb s v in vec b /\ bmsb b = msb /\ blsb b = lsb /\ bsgn b = s /\ num b = v mod 2 ^ width msb lsb.
Proof.
  intros A B W Hv H1 Hb. cbn zeta. unfold bit_of_arith. change (vsize msb lsb) with (width msb lsb). unfold native_num. destruct (Z.leb_spec (width msb lsb) 64) as [L|L].
  - unfold bit_of_native. change (vsize msb lsb) with (width msb lsb). fold (nat_bit msb lsb s v). split; [apply nat_bit_vec; lia || assumption|]. split; [reflexivity|]. split; [reflexivity|]. split; [reflexivity|].
    destruct (Z.eq_dec (width msb lsb) 1) as [E|N]; [|apply nat_bit_num; unfold width in *; lia]. rewrite nat_bit_num1 by exact E. rewrite E. specialize (H1 E). assert (v = 0 \/ v = 1) as [-> | ->] by lia; reflexivity.
  - destruct (of_native_num (width msb lsb) s v ltac:(lia) Hv (Hb ltac:(lia))) as (I & M). unfold bit_of_arith_big. change (vsize msb lsb) with (width msb lsb). cbn zeta.
    change (if s && (v <? 0) then _ else _) with (n_ws (num_of_native (width msb lsb) s v)).
    destruct I as (_ & I1 & _ & I3 & I4). split. { apply big_vec; try assumption; try lia. split; [exact I4|]. unfold wlen. rewrite I3. symmetry. apply nwords_up. }
    split; [reflexivity|]. split; [reflexivity|]. split; [reflexivity|]. unfold magn, raw in M. rewrite I1 in M. exact M.
Qed.
(** a one-position vector takes every non-zero number as 1; an unsigned multi-word vector takes a negative number modulo 2^64 *)
Lemma of_arith_one msb s v : int_ok msb -> num (bit_of_arith msb msb s v) = if v =? 0 then 0 else 1.
Proof.
  intros A. assert (W : width msb msb = 1) by (unfold width; lia). unfold bit_of_arith. change (vsize msb msb) with (width msb msb). rewrite W. change (native_num 1) with true. cbn iota.
  exact (nat_bit_num1 msb msb s v W).
Qed.
Lemma of_arith_unsigned msb lsb v : 65 <= width msb lsb < 2 ^ 31 -> num (bit_of_arith msb lsb false v) = v mod 2 ^ 64.
Proof.
  intros W. unfold bit_of_arith. change (vsize msb lsb) with (width msb lsb). replace (native_num (width msb lsb)) with false by (unfold native_num; lia). unfold bit_of_arith_big. cbn [andb]. change (vsize msb lsb) with (width msb lsb). cbn zeta.
  unfold num, stored, bw. cbn [bval bmsb blsb]. destruct (bn_of_native_spec (width msb lsb) v ltac:(lia)) as [_ E]. rewrite E. unfold u64. apply Z.mod_small.
  pose proof (Z.mod_pos_bound v (2 ^ 64) ltac:(lia)). assert (2 ^ 64 <= 2 ^ width msb lsb) by (apply Z.pow_le_mono_r; lia). lia.
Qed.
Lemma of_arith_value msb lsb (s : bool) v : int_ok msb -> int_ok lsb -> 2 <= width msb lsb < 2 ^ 31 -> - 2 ^ 63 <= v < 2 ^ 64 ->
  (if s then - 2 ^ (width msb lsb - 1) <= v < 2 ^ (width msb lsb - 1) else 0 <= v < 2 ^ width msb lsb) -> value (bit_of_arith msb lsb s v) = v.
Proof.
  intros A B W Hv R. destruct (of_arith_spec msb lsb s v A B ltac:(lia) Hv ltac:(lia)) as (_ & E1 & E2 & E3 & N). { intros _. destruct s; [auto|right; lia]. }
  unfold value. rewrite E3. destruct s.
  - unfold snum. assert (bw (bit_of_arith msb lsb true v) = width msb lsb) as -> by (unfold bw; now rewrite E1, E2). rewrite N, twos_swrap by lia. apply swrap_id; [lia|exact R].
  - rewrite N. apply Z.mod_small. exact R.
Qed.
Lemma of_arith4 msb lsb s v : int_ok msb -> int_ok lsb -> width msb lsb < 2 ^ 31 -> - 2 ^ 63 <= v < 2 ^ 64 ->
  (width msb lsb = 1 -> 0 <= v <= 1) -> (65 <= width msb lsb -> s = true \/ 0 <= v) ->
  let l := logic_of_arith msb lsb s v in lvec l /\ lmsb l = msb /\ llsb l = lsb /\ lsgn l = s /\ known l /\
    (forall p, 0 <= p < width msb lsb -> sym_at l p = sym_of_bool (Z.testbit v p)).
Proof.
  intros A B W Hv H1 Hb. destruct (of_arith_spec msb lsb s v A B W Hv H1 Hb) as (V & E1 & E2 & E3 & N). destruct (zero_vec msb lsb false A B W) as (V' & F1 & F2 & F3 & _ & N' & _). cbn zeta.
  unfold logic_of_arith, lmsb, llsb, lsgn. cbn [l_val]. split. { unfold lvec. cbn [l_val l_xz]. split; [exact V|]. split; [exact V'|]. split; [congruence|]. split; [congruence|exact F3]. }
  split; [exact E1|]. split; [exact E2|]. split; [exact E3|]. split; [apply known_of_num0; exact N'|].
  intros p Hp. unfold sym_at, bit_at. cbn [l_val l_xz]. rewrite N, N', Z.testbit_0_l, Z.mod_pow2_bits_low by lia. destruct (Z.testbit v p); reflexivity.
Qed.
Lemma assign_arith b v : vec b -> bw b <= 64 -> (bw b = 1 -> 0 <= v <= 1) ->
  exists r, bit_assign_arith b v = Ok r /\ vec r /\ bmsb r = bmsb b /\ blsb r = blsb b /\ bsgn r = bsgn b /\ num r = v mod 2 ^ bw b.
Proof.
  intros V L H1. pose proof V as (_ & A & B & _). unfold bit_assign_arith. destruct (vec_cases b V) as [(x & E & N & I & S) | (ws & E & N & _)]; [|lia]. rewrite E.
  change (bsize b) with (width (bmsb b) (blsb b)). fold (nat_bit (bmsb b) (blsb b) (bsgn b) v). eexists. split; [reflexivity|]. split; [apply nat_bit_vec; lia || assumption|].
  split; [reflexivity|]. split; [reflexivity|]. split; [reflexivity|]. unfold bw in *. destruct (Z.eq_dec (width (bmsb b) (blsb b)) 1) as [E1|N1]; [|apply nat_bit_num; unfold width in *; lia].
  rewrite nat_bit_num1 by exact E1. rewrite E1. specialize (H1 E1). assert (v = 0 \/ v = 1) as [-> | ->] by lia; reflexivity.
Qed.
Lemma assign_arith4 l v : lvec l -> lw l <= 64 -> (lw l = 1 -> 0 <= v <= 1) ->
  exists r, logic_assign_arith l v = Ok r /\ lvec r /\ lmsb r = lmsb l /\ llsb r = llsb l /\ lsgn r = lsgn l /\ known r /\
    (forall p, 0 <= p < lw l -> sym_at r p = sym_of_bool (Z.testbit v p)).
Proof.
  intros (V & V' & A & B & C) L H1. assert (W : bw (l_xz l) = bw (l_val l)) by (unfold bw; now rewrite A, B). unfold logic_assign_arith.
  destruct (assign_arith (l_val l) v V L H1) as (x & Ex & Vx & X1 & X2 & X3 & Nx). destruct (assign_arith (l_xz l) 0 V') as (m & Em & Vm & M1 & M2 & M3 & Nm); [rewrite W; exact L|lia|].
  rewrite Ex. cbn [bind]. rewrite Em. cbn [bind]. rewrite Zmod_0_l in Nm. eexists. split; [reflexivity|]. unfold lmsb, llsb, lsgn. cbn [l_val l_xz].
  split. { unfold lvec. cbn [l_val l_xz]. split; [exact Vx|]. split; [exact Vm|]. split; [congruence|]. split; [congruence|congruence]. }
  split; [exact X1|]. split; [exact X2|]. split; [exact X3|]. split; [apply known_of_num0; exact Nm|].
  intros p Hp. unfold sym_at, bit_at. cbn [l_val l_xz]. rewrite Nx, Nm, Z.testbit_0_l. rewrite Z.mod_pow2_bits_low by (unfold lw in Hp; lia). destruct (Z.testbit v p); reflexivity.
Qed.
Lemma assign_arith_rejected b l v : (vec b -> 65 <= bw b -> bit_assign_arith b v = IllFormed) /\ (lvec l -> 65 <= lw l -> logic_assign_arith l v = IllFormed).
Proof.
  assert (H : forall b, vec b -> 65 <= bw b -> bit_assign_arith b v = IllFormed). { intros b0 V L. unfold bit_assign_arith. destruct (vec_cases b0 V) as [(x & E & N & I & S) | (ws & E & N & _)]; [lia|]. now rewrite E. }
  split; [apply H|]. intros (V & _) L. unfold logic_assign_arith. rewrite H by assumption. reflexivity.
Qed.
Lemma of_arith_counter : num (bit_of_arith 0 0 false 2) = 1 /\ num (bit_of_arith 127 0 false (-1)) = 2 ^ 64 - 1 /\ (-1) mod 2 ^ 128 = 2 ^ 128 - 1.
Proof. vm_compute. auto. Qed.

(** * packed arrays from a number *)
Lemma pa_construct t v : 1 <= pa_base t -> pa_base t * elems t < 2 ^ 31 -> int_ok (pa_msb t) -> int_ok (pa_lsb t) -> - 2 ^ 63 <= v < 2 ^ 64 -> (pa_base t * elems t = 1 -> 0 <= v <= 1) ->
  (65 <= pa_base t * elems t -> pa_sgn t = true \/ 0 <= v) ->
  arr4 t (pa_of_arith t v) /\ arr2 t (pa_of_arith_bit t v) /\
  forall i p, element t i -> 0 <= p < pa_base t ->
    sym_at (pa_of_arith t v) (start t i + p) = sym_of_bool (Z.testbit v (start t i + p)) /\
    bit_at (pa_of_arith_bit t v) (start t i + p) = Z.testbit v (start t i + p).
Proof.
  intros B1 W _ _ Hv H1 Hb. pose proof (elems_pos t) as Ep. set (n := pa_base t * elems t) in *. assert (1 <= n) by (unfold n; nia). assert (Wn : width (n - 1) 0 = n) by (unfold width; lia).
  assert (A : int_ok (n - 1)) by (unfold int_ok; lia). assert (B : int_ok 0) by (unfold int_ok; lia).
  destruct (of_arith_spec (n - 1) 0 (pa_sgn t) v A B) as (V & E1 & E2 & E3 & N); rewrite ?Wn; auto.
  destruct (of_arith4 (n - 1) 0 (pa_sgn t) v A B) as (L & F1 & F2 & F3 & K & S); rewrite ?Wn; auto. rewrite Wn in *.
  unfold pa_of_arith, pa_of_arith_bit. rewrite pa_size_eq. fold n. split. { split; [exact B1|]. fold n. pose proof L as (L1 & L2 & L3 & L4 & L5). unfold lmsb, llsb, lsgn in *. split; (split; [assumption|]); (split; [split; congruence|congruence]). }
  split. { split; [exact B1|]. fold n. split; [exact V|]. split; [split; assumption|assumption]. }
  intros i p Hi Hp. destruct (start_range t i B1 Hi) as [R1 R2]. fold n in R2. split; [apply S; lia|]. unfold bit_at. rewrite N. apply Z.mod_pow2_bits_low. lia.
Qed.
Lemma pa_defaults t : 1 <= pa_base t -> pa_base t * elems t < 2 ^ 31 ->
  arr4 t (pa_default t) /\ all_x (pa_default t) /\ arr2 t (pa_default_bit t) /\ num (pa_default_bit t) = 0.
Proof.
  intros B1 W. pose proof (elems_pos t) as Ep. unfold pa_default, pa_default_bit. rewrite pa_size_eq. set (n := pa_base t * elems t) in *. assert (1 <= n) by (unfold n; nia).
  destruct (default_typed n (pa_sgn t) ltac:(lia)) as (T & X & _). split; [split; [exact B1|exact T]|]. split; [exact X|].
  destruct (zero_vec (n - 1) 0 (pa_sgn t)) as (V & E1 & E2 & E3 & _ & N & _); [unfold int_ok; lia|unfold int_ok; lia|unfold width; lia|].
  split; [|exact N]. split; [exact B1|]. split; [exact V|]. split; [split; assumption|assumption].
Qed.

(** * field width prefix *)
Lemma stoul_large ds : Forall (among "0123456789"%string) ds -> ds <> [] -> 2 ^ 64 <= numeral_value 10 ds -> stoul ds = Exn.
Proof.
  intros F N L. unfold stoul. destruct ds as [|c ds]; [congruence|]. assert (E : forall l a, Forall (among "0123456789"%string) l -> fold_left (fun a c => a * 10 + (c - 48)) l a = fold_left (fun a c => a * 10 + digit_value c) (clean l) a).
  { clear. induction l as [|c l IH]; intros a F; [reflexivity|]. inversion F; subst. cbn [fold_left clean filter]. assert (D : c <> 95 /\ digit_value c = c - 48) by (chars_cases H1; split; (discriminate || reflexivity)). destruct D as [D1 D2].
    rewrite (proj2 (Z.eqb_neq c 95) D1). cbn [negb fold_left]. rewrite D2. now apply IH. }
  rewrite E by exact F. change (fold_left (fun a c => a * 10 + digit_value c) (clean (c :: ds)) 0) with (numeral_value 10 (c :: ds)). rewrite (proj2 (Z.ltb_ge _ _) L). reflexivity.
Qed.
Lemma find_first_all f s : Forall (fun x => f x = false) s -> find_first f s = None.
Proof. induction 1 as [|x s H F IH]; [reflexivity|]. cbn [find_first]. rewrite H, IH. reflexivity. Qed.
Lemma str_len_digits ds rest size : Forall (among "0123456789"%string) ds -> ds <> [] -> (rest = [] \/ ~ among "0123456789"%string (hd 0 rest)) ->
  str_len size (ds ++ rest) = if numeral_value 10 ds <? 2 ^ 64 then Ok (Z.max size (numeral_value 10 ds)) else Exn.
Proof.
  intros F N R.
  assert (St : stoul ds = if numeral_value 10 ds <? 2 ^ 64 then Ok (numeral_value 10 ds) else Exn).
  { destruct (Z.ltb_spec (numeral_value 10 ds) (2 ^ 64)); [now apply stoul_digits|]. now apply stoul_large. }
  assert (E : str_len size (ds ++ rest) = omap (Z.max size) (stoul ds)).
  { unfold str_len. destruct rest as [|c rest].
    - rewrite app_nil_r. rewrite find_first_all; [reflexivity|]. revert F. apply Forall_impl. intros c H. now rewrite digit_among.
    - destruct R as [R|R]; [discriminate|]. cbn [hd] in R. rewrite (fmt_find ds c rest F R). destruct ds as [|d ds]; [congruence|]. unfold len. cbn [List.length]. rewrite Nat2Z.inj_succ.
      destruct (Z.succ (Z.of_nat (List.length ds))) eqn:Q; try lia. rewrite <- Q. replace (Z.to_nat (Z.succ (Z.of_nat (List.length ds)))) with (List.length (d :: ds)) by (cbn [List.length]; lia).
      rewrite firstn_app, firstn_all, Nat.sub_diag. cbn [firstn]. now rewrite app_nil_r. }
  rewrite E, St. destruct (_ <? _); reflexivity.
Qed.
Lemma str_len_none c rest size : ~ among "0123456789"%string c -> str_len size (c :: rest) = Ok size.
Proof. intros H. unfold str_len. cbn [find_first]. now rewrite not_digit_among. Qed.
Lemma str_len_empty size : str_len size [] = Exn. Proof. reflexivity. Qed.
Lemma copy_reversed_bit dst src start e r : 0 <= e < start -> start < 2 ^ 63 -> bit_copy dst src start e <> Ok r.
Proof. apply copy_reversed. Qed.
