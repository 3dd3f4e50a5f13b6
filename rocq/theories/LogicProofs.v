(** Lemmas about 4-state vectors. *)
From Coq Require Import ZArith List Bool Lia.
From Verif Require Import Cpp BigNum Bit Logic Spec ZBits Words BigNumProofs BigArith BitProofs BitSlice BitExt BitOps
  BitShift BitCmp BitArith BitMain BitMain2 BitMain3 BitMain4 BitMain5.
Import ListNotations.
Open Scope Z_scope.

Lemma ltyped_lvec l n s : ltyped l n s -> lvec l.
Proof. intros [(V & [P1 P2] & S) (V' & [P1' P2'] & S')]. unfold lvec. repeat split; try apply V; try apply V'; congruence. Qed.
Lemma lvec_ok l : lvec l <-> logic_ok l = true /\ vec (l_val l) /\ vec (l_xz l).
Proof.
  unfold lvec, logic_ok, lmsb, llsb. rewrite !andb_true_iff, !Z.eqb_eq, negb_true_iff. split.
  - intros (V & V' & A & B & C). pose proof V as [? _]. pose proof V' as [? _]. tauto.
  - intros (((((A & B) & C) & D) & E) & V & V'). tauto.
Qed.
Lemma lw_lvec l : lvec l -> bw (l_xz l) = lw l.
Proof. intros (_ & _ & A & B & _). unfold lw, bw. now rewrite A, B. Qed.
Lemma ltyped_lw l n s : 1 <= n -> ltyped l n s -> lw l = n.
Proof. intros Hn [H _]. exact (typed_bw _ _ _ Hn H). Qed.
Lemma ltyped_sgn l n s : ltyped l n s -> lsgn l = s. Proof. intros [H _]. apply H. Qed.
Lemma ltyped_lsize l n s : 1 <= n -> ltyped l n s -> lsize l = n.
Proof. intros Hn [H _]. exact (typed_bsize _ _ _ Hn H). Qed.

Lemma sym_of_val v m : sym_of v m = S1 \/ sym_of v m = SZ <-> v = true.
Proof. destruct v, m; cbn; intuition congruence. Qed.
Lemma unknown_mask v m : unknown (sym_of v m) = m. Proof. destruct v, m; reflexivity. Qed.
Lemma unknown_at l p : unknown (sym_at l p) = bit_at (l_xz l) p. Proof. apply unknown_mask. Qed.

(** one-bit vectors *)
Lemma bit0_typed b : typed (bit0 b) 1 false /\ tidy (bit0 b) /\ bit_at (bit0 b) 0 = b /\ num (bit0 b) = b2z b.
Proof. destruct b; conc. Qed.
Lemma one_bit_l v m : let r := mkLogic (bit0 v) (bit0 m) in ltyped r 1 false /\ ltidy r /\ sym_at r 0 = sym_of v m.
Proof.
  destruct (bit0_typed v) as (A & B & C & D), (bit0_typed m) as (A' & B' & C' & D').
  cbn zeta. split; [split; assumption|]. split; [split; assumption|]. unfold sym_at. cbn [l_val l_xz]. now rewrite C, C'.
Qed.
Definition sym1 (s : sym) : logic := mkLogic (bit0 (match s with S1 | SZ => true | _ => false end)) (bit0 (unknown s)).
Lemma sym1_spec s : ltyped (sym1 s) 1 false /\ ltidy (sym1 s) /\ sym_at (sym1 s) 0 = s.
Proof.
  unfold sym1. destruct (one_bit_l (match s with S1 | SZ => true | _ => false end) (unknown s)) as (A & B & C).
  split; [exact A|]. split; [exact B|]. rewrite C. now destruct s.
Qed.

(** default construction *)
Lemma mask_vec msb lsb : int_ok msb -> int_ok lsb -> width msb lsb < 2 ^ 31 ->
  let b := bit_mask msb lsb false in
  vec b /\ bmsb b = msb /\ blsb b = lsb /\ bsgn b = false /\ num b = 2 ^ bw b - 1 /\ tidy b.
Proof.
  intros H1 H2 H3. pose proof (bw_pos (bit_mask msb lsb false)) as Hp. change (bw (bit_mask msb lsb false)) with (width msb lsb) in Hp.
  unfold bit_mask, bit_mask_holder. change (vsize msb lsb) with (width msb lsb). unfold native_num.
  pose proof (pow2_pos (width msb lsb) ltac:(lia)) as Hpp.
  destruct (Z.leb_spec (width msb lsb) 64) as [Hn|Hn].
  - destruct (Z.eqb_spec (width msb lsb) 1) as [E|E].
    + cbn zeta. assert (mkBit msb lsb false (HN 1) = nat_bit msb lsb false 1) as -> by (unfold nat_bit; rewrite E; reflexivity).
      refine (conj _ (conj eq_refl (conj eq_refl (conj eq_refl (conj _ _))))); [apply nat_bit_vec; auto; lia| |].
      * change (bw (nat_bit msb lsb false 1)) with (width msb lsb). rewrite nat_bit_num1 by assumption. rewrite E. reflexivity.
      * apply nat_bit_tidy; [lia|]. rewrite E. lia.
    + set (n := width msb lsb) in *. assert (Hsh : Z.shiftr (cmax (hty n false)) (szbits (hty n false) - n) = 2 ^ n - 1).
      { unfold cmax. rewrite hty_signed by lia. rewrite szbits_nb by (apply hty_nb; lia).
        pose proof (hty_width n false ltac:(lia)). rewrite Z.shiftr_div_pow2 by lia.
        replace (2 ^ iwidth (hty n false) - 1) with ((2 ^ n - 1) * 2 ^ (iwidth (hty n false) - n) + (2 ^ (iwidth (hty n false) - n) - 1)).
        2:{ rewrite Z.mul_sub_distr_r, <- Z.pow_add_r by lia. replace (n + (iwidth (hty n false) - n)) with (iwidth (hty n false)) by lia. lia. }
        pose proof (pow2_pos (iwidth (hty n false) - n) ltac:(lia)).
        rewrite Z.div_add_l by lia. rewrite Z.div_small by lia. lia. }
      cbn zeta. rewrite Hsh. fold (nat_bit msb lsb false (2 ^ n - 1)).
      refine (conj _ (conj eq_refl (conj eq_refl (conj eq_refl (conj _ _))))); [apply nat_bit_vec; auto; lia| |].
      * match goal with |- _ = 2 ^ ?w - 1 => change w with n end. apply nat_bit_num_small; fold n; lia.
      * apply nat_bit_tidy; fold n; lia.
  - destruct (bn_mask_spec (width msb lsb) ltac:(lia)) as [W E]. cbn zeta.
    refine (conj _ (conj eq_refl (conj eq_refl (conj eq_refl (conj _ _))))); [apply big_vec; auto; lia| |].
    + rewrite big_num_eq, E. unfold bw. cbn [bmsb blsb]. apply Z.mod_small. lia.
    + apply big_tidy. rewrite E. lia.
Qed.
Lemma ones_bits n p : 0 <= p < n -> Z.testbit (2 ^ n - 1) p = true.
Proof. intros H. replace (2 ^ n - 1) with (Z.ones n) by (rewrite Z.ones_equiv; lia). apply Z.ones_spec_low. lia. Qed.

Lemma default_x msb lsb s : int_ok msb -> int_ok lsb -> width msb lsb < 2 ^ 31 ->
  let l := logic_default msb lsb s in
  lvec l /\ lmsb l = msb /\ llsb l = lsb /\ lsgn l = s /\ all_x l /\ ltidy l.
Proof.
  intros H1 H2 H3. destruct (zero_vec msb lsb s H1 H2 H3) as (V & A & B & C & D & E & T).
  destruct (mask_vec msb lsb H1 H2 H3) as (V' & A' & B' & C' & D' & T'). cbn zeta. unfold logic_default, lmsb, llsb, lsgn, lvec, ltidy. cbn [l_val l_xz].
  split; [|split; [|split; [|split; [|split]]]]; try assumption.
  - repeat split; try apply V; try apply V'; congruence.
  - intros p Hp. unfold lw in Hp. cbn [l_val] in Hp. unfold sym_at. cbn [l_val l_xz]. unfold bit_at. rewrite E, D'.
    rewrite Z.bits_0. rewrite ones_bits; [reflexivity|]. replace (bw (bit_mask msb lsb false)) with (bw (bit_zero msb lsb s)); [assumption|].
    unfold bw. now rewrite A, B, A', B'.
  - now split.
Qed.
Lemma default_typed n s : 1 <= n < 2 ^ 31 -> ltyped (logic_default (n - 1) 0 s) n s /\ all_x (logic_default (n - 1) 0 s) /\ ltidy (logic_default (n - 1) 0 s).
Proof.
  intros H. destruct (default_x (n - 1) 0 s) as ((V & V' & A & B & C) & D & E & F & G & T); try (unfold int_ok, width; lia).
  split; [|now split]. unfold lmsb, llsb, lsgn in *. unfold ltyped, typed, plain. rewrite A, B, D, E. auto.
Qed.

(** * Single positions *)
Lemma u64_id z : 0 <= z < 2 ^ 64 -> u64 z = z. Proof. intros. unfold u64. apply Z.mod_small. assumption. Qed.
Lemma pow2_lt64 i : 0 <= i < 64 -> 0 < 2 ^ i < 2 ^ 64.
Proof. intros H. split; [apply pow2_pos; lia | apply Z.pow_lt_mono_r; lia]. Qed.
Lemma c_shl_u64 i : 0 <= i < 64 -> c_shl TU64 1 i = Ok (2 ^ i).
Proof.
  intros H. unfold c_shl. cbn [promote iwidth isigned]. destruct (Z.leb_spec 0 i); [|lia]. destruct (Z.ltb_spec i 64); [|lia]. cbn [andb].
  rewrite Z.shiftl_mul_pow2, Z.mul_1_l by lia. unfold conv. cbn [isigned iwidth]. rewrite Z.mod_small by (pose proof (pow2_lt64 i H); lia). reflexivity.
Qed.
Lemma c_shl_u64_bad i : 64 <= i -> c_shl TU64 1 i = UB.
Proof. intros H. unfold c_shl. cbn [promote iwidth isigned]. destruct (Z.ltb_spec i 64); [lia|]. now rewrite andb_false_r. Qed.
Lemma bit0_set_eq v i x : 0 <= i < 2 ^ 64 -> bit_set (bit0 v) i x =
  (let! v' := native_set TBool (b2z v) i x in Ok (mkBit 0 0 false (HN v'))).
Proof. intros H. unfold bit_set. cbn [bit0 bmsb blsb bsgn bval]. cbn [big_endian Z.leb Z.compare Z.min]. rewrite Z.sub_0_r, u64_id by assumption. reflexivity. Qed.
Lemma bit0_set_true v i : 0 <= i < 64 -> bit_set (bit0 v) i true = Ok (bit0 true).
Proof.
  intros H. rewrite bit0_set_eq by lia. unfold native_set. rewrite c_shl_u64 by assumption. cbn [bind].
  change (conv TBool (c_or TBool TU64 (b2z v) (2 ^ i))) with (if c_or TBool TU64 (b2z v) (2 ^ i) =? 0 then 0 else 1).
  destruct (Z.eqb_spec (c_or TBool TU64 (b2z v) (2 ^ i)) 0) as [E|E]; [|reflexivity].
  exfalso. apply (f_equal (fun z => Z.testbit z i)) in E. rewrite Z.bits_0 in E. unfold c_or in E. rewrite uac_u64, Z.lor_spec in E.
  apply orb_false_iff in E as [_ E]. rewrite conv_testbit in E by (discriminate || (cbn; lia)). rewrite Z.pow2_bits_true in E by lia. discriminate.
Qed.
Lemma bit0_set_false0 i : 0 <= i < 64 -> bit_set (bit0 false) i false = Ok (bit0 false).
Proof.
  intros H. rewrite bit0_set_eq by lia. unfold native_set. rewrite c_shl_u64 by assumption. cbn [bind b2z].
  unfold c_and. rewrite uac_u64. change (conv TU64 0) with 0. rewrite Z.land_0_l. reflexivity.
Qed.
Lemma bit0_set_bad v i x : 64 <= i < 2 ^ 64 -> bit_set (bit0 v) i x = UB.
Proof. intros H. rewrite bit0_set_eq by lia. unfold native_set. rewrite c_shl_u64_bad by lia. reflexivity. Qed.

Definition zero_based (l : logic) : Prop := Z.min (lmsb l) (llsb l) = 0.
Lemma lvec_xz_range l : lvec l -> bmsb (l_xz l) = lmsb l /\ blsb (l_xz l) = llsb l.
Proof. intros (_ & _ & A & B & _). split; assumption. Qed.
Lemma get_pair l i : lvec l -> zero_based l -> in_range (lmsb l) (llsb l) i ->
  let p := place (lmsb l) (llsb l) i in
  0 <= p < lw l /\ bit_get (l_val l) i = Ok (bit_at (l_val l) p) /\ bit_get (l_xz l) i = Ok (bit_at (l_xz l) p).
Proof.
  intros V Z0 R p. destruct (lvec_xz_range l V) as [A B]. destruct V as (V & V' & _).
  destruct (pos_zero_based (l_val l) i Z0 R) as (E & _ & P).
  assert (Z0' : Z.min (bmsb (l_xz l)) (blsb (l_xz l)) = 0) by (rewrite A, B; exact Z0).
  assert (R' : in_range (bmsb (l_xz l)) (blsb (l_xz l)) i) by (rewrite A, B; exact R).
  destruct (pos_zero_based (l_xz l) i Z0' R') as (E' & _ & P').
  split; [exact P|]. rewrite !bit_get_spec by (rewrite ?E, ?E'; assumption). rewrite E, E'. unfold p, lmsb, llsb in *. now rewrite A, B.
Qed.
Lemma in_range_test l i : (i <=? Z.max (lmsb l) (llsb l)) && (Z.min (lmsb l) (llsb l) <=? i) = true <-> in_range (lmsb l) (llsb l) i.
Proof. unfold in_range. rewrite andb_true_iff, !Z.leb_le. lia. Qed.

Lemma logic_get_spec l i : lvec l -> zero_based l -> in_range (lmsb l) (llsb l) i ->
  let s := sym_at l (place (lmsb l) (llsb l) i) in
  logic_get l i = if unknown s && (64 <=? i) then UB else Ok (sym1 s).
Proof.
  intros V Z0 R. destruct (get_pair l i V Z0 R) as (P & G & G').
  assert (Hi : 0 <= i) by (unfold in_range, zero_based in *; lia).
  assert (Hi2 : i < 2 ^ 64). { destruct V as ((_ & [_ M1] & [_ M2] & _) & _). unfold in_range, lmsb, llsb in *. lia. }
  cbn zeta. unfold logic_get. rewrite (proj2 (in_range_test l i) R).
  unfold logic_x_set, logic_z_set. rewrite G, G'. cbn [bind].
  unfold sym_at. set (m := bit_at (l_xz l) _). set (v := bit_at (l_val l) _). clearbody m v.
  change (logic_default 0 0 false) with logic_x. unfold logic_set_x, logic_set_z. cbn [logic_x l_val l_xz].
  destruct m; cbn [bind].
  - rewrite unknown_mask. cbn [andb]. destruct (Z.leb_spec 64 i).
    + destruct v; cbn [negb]; now rewrite bit0_set_bad by lia.
    + destruct v; cbn [negb]; rewrite bit0_set_true by lia; cbn [bind].
      * rewrite bit0_set_true by lia. reflexivity.
      * rewrite bit0_set_false0 by lia. reflexivity.
  - rewrite unknown_mask. cbn [andb]. destruct v; reflexivity.
Qed.
Lemma logic_get_outside l i : ~ in_range (lmsb l) (llsb l) i -> logic_get l i = Ok (sym1 SX).
Proof.
  intros R. unfold logic_get. destruct ((i <=? _) && _) eqn:E; [|reflexivity].
  exfalso. apply R. now apply in_range_test.
Qed.

(** writing a pair of positions *)
Lemma set_pair l i x y : lvec l -> zero_based l -> in_range (lmsb l) (llsb l) i ->
  exists (v m : bit), bit_set (l_val l) i x = Ok v /\ bit_set (l_xz l) i y = Ok m /\
    let l' := mkLogic v m in
    lvec l' /\ lmsb l' = lmsb l /\ llsb l' = llsb l /\ lsgn l' = lsgn l /\ (lsgn l = false -> ltidy l -> ltidy l') /\
    (forall p, 0 <= p < lw l -> sym_at l' p = if p =? place (lmsb l) (llsb l) i then sym_of x y else sym_at l p).
Proof.
  intros V Z0 R. destruct (lvec_xz_range l V) as [A B]. pose proof (lw_lvec l V) as LW. destruct V as (V & V' & _ & _ & S').
  destruct (pos_zero_based (l_val l) i Z0 R) as (_ & E & P).
  assert (Z0' : Z.min (bmsb (l_xz l)) (blsb (l_xz l)) = 0) by (rewrite A, B; exact Z0).
  assert (R' : in_range (bmsb (l_xz l)) (blsb (l_xz l)) i) by (rewrite A, B; exact R).
  destruct (pos_zero_based (l_xz l) i Z0' R') as (_ & E' & P').
  destruct (bit_set_spec (l_val l) i x V) as (v & Ev & Vv & Mv & Lv & Sv & Bv & Tv); [rewrite E; assumption|].
  destruct (bit_set_spec (l_xz l) i y V') as (m & Em & Vm & Mm & Lm & Sm & Bm & Tm); [rewrite E'; assumption|].
  exists v, m. split; [assumption|]. split; [assumption|]. unfold lvec, lmsb, llsb, lsgn, ltidy in *. cbn [l_val l_xz].
  split; [repeat split; try apply Vv; try apply Vm; congruence|]. split; [assumption|]. split; [assumption|]. split; [assumption|].
  split. { intros HS [T1 T2]. split; auto. }
  intros p Hp. unfold sym_at. cbn [l_val l_xz]. rewrite Bv by exact Hp. rewrite Bm by (rewrite LW; exact Hp).
  rewrite E, E', A, B. now destruct (p =? _).
Qed.

Definition logic_write (l : logic) (i : Z) (s : sym) : outcome logic :=
  match s with
  | S0 => logic_set l i false
  | S1 => logic_set l i true
  | SX => logic_set_x l i
  | SZ => logic_set_z l i
  end.
Lemma logic_write_spec l i s : lvec l -> zero_based l -> in_range (lmsb l) (llsb l) i ->
  exists l', logic_write l i s = Ok l' /\ logic_set_l l i (sym1 s) = Ok l' /\
    lvec l' /\ lmsb l' = lmsb l /\ llsb l' = llsb l /\ lsgn l' = lsgn l /\ (lsgn l = false -> ltidy l -> ltidy l') /\
    (forall p, 0 <= p < lw l -> sym_at l' p = if p =? place (lmsb l) (llsb l) i then s else sym_at l p).
Proof.
  intros V Z0 R.
  destruct (set_pair l i (match s with S1 | SZ => true | _ => false end) (unknown s) V Z0 R) as (v & m & E1 & E2 & H).
  exists (mkLogic v m). split; [|split].
  - destruct s; cbn [logic_write unknown] in *; unfold logic_set, logic_set_x, logic_set_z; rewrite E1; cbn [bind]; rewrite E2; cbn [bind]; rewrite ?E1; reflexivity.
  - unfold logic_set_l, sym1. cbn [l_val l_xz]. destruct s; cbn [unknown] in *; cbn [bit0_bool bit0 bval b2z Z.eqb negb]; now rewrite E1, E2.
  - destruct s; exact H.
Qed.
