(** Lemmas about 4-state shifts, comparisons and arithmetic. *)
From Coq Require Import ZArith List Bool Lia.
From Verif Require Import Cpp BigNum Bit Logic Spec ZBits Words BigNumProofs BigArith BitProofs BitSlice BitExt BitOps
  BitShift BitCmp BitArith BitMain BitMain2 BitMain3 BitMain4 BitMain5 LogicProofs LogicOps LogicRed.
Import ListNotations.
Open Scope Z_scope.

(** * shifts *)
Definition noill {A} (m : outcome A) : Prop := m <> IllFormed.
Lemma noill_bind {A B} (m : outcome A) (k : A -> outcome B) : noill m -> (forall a, noill (k a)) -> noill (bind m k).
Proof. intros H K. destruct m; cbn; try discriminate; auto. intros _. apply H. reflexivity. Qed.
Lemma noill_ok {A} (a : A) : noill (Ok a). Proof. discriminate. Qed.
Lemma noill_shr t v k : noill (c_shr t v k). Proof. unfold c_shr. now destruct (_ && _). Qed.
Lemma noill_shl t v k : noill (c_shl t v k). Proof. unfold c_shl. now destruct (_ && _). Qed.
Lemma noill_arith t z : noill (arith t z). Proof. unfold arith. destruct (isigned t); [|discriminate]. now destruct (in_ity t z). Qed.
Lemma shift_noill a amt : vec a -> vec amt -> (65 <= bw a \/ bw amt <= 64) ->
  noill (bit_shr a amt) /\ noill (bit_shl a amt) /\ noill (bit_ashr a amt).
Proof.
  intros Va Vk C. unfold bit_shr, bit_shl, bit_ashr.
  destruct (vec_cases a Va) as [(v & -> & Ra & _)|(ws & -> & Ra & _)]; destruct (vec_cases amt Vk) as [(k & -> & Rk & _)|(ks & -> & Rk & _)];
    try (repeat split; discriminate); [|lia].
  split; [|split].
  - apply noill_bind; [apply noill_shr|]. intros x. apply noill_bind; [apply noill_arith|]. intros y. apply noill_bind; [|intros; apply noill_ok].
    unfold value_mask. apply noill_bind; [apply noill_shr|intros; apply noill_ok].
  - apply noill_bind; [apply noill_shl|intros; apply noill_ok].
  - apply noill_bind; [apply noill_shr|intros; apply noill_ok].
Qed.

Lemma shift_unknown op a amt : lvec a -> lvec amt -> tidy (l_xz a) -> tidy (l_xz amt) -> seen a -> seen amt ->
  noill (op (l_val a) (l_val amt)) -> ~ (known a /\ known amt) ->
  exists r, logic_shift op a amt = Ok r /\ ltyped r (lw a) (lsgn a && lsgn amt) /\ all_x r /\ ltidy r.
Proof.
  intros Va Vk Ta Tk Sa Sk NI U. unfold logic_shift. change (lsize a) with (lw a).
  assert (bit_any_set (l_xz amt) || bit_any_set (l_xz a) = true) as ->.
  { apply orb_true_iff. destruct (bit_any_set (l_xz a)) eqn:Ea; [now right|]. left. apply any_xz in Ea; auto.
    apply any_xz_unknown; auto. }
  assert (R : 1 <= lw a < 2 ^ 31). { split; [apply bw_pos | apply Va]. }
  destruct (default_typed (lw a) (lsgn a && lsgn amt) R) as (T & X & D).
  exists (logic_default (lw a - 1) 0 (lsgn a && lsgn amt)). split; [|auto]. destruct (op (l_val a) (l_val amt)); try reflexivity. now destruct NI.
Qed.

Lemma stored0 b : vec b -> bsgn b = false -> tidy b -> num b = 0 -> stored b = 0.
Proof. intros _ S T E. rewrite <- (num_of_tidy b T S). exact E. Qed.
Lemma known_num0 b : num b = 0 -> forall p, bit_at b p = false. Proof. intros E p. unfold bit_at. rewrite E. apply Z.bits_0. Qed.
Lemma known_of_num0 l : num (l_xz l) = 0 -> known l. Proof. intros E p _. rewrite unknown_at. now apply known_num0. Qed.

Lemma zero_value b : bsgn b = false -> num b = 0 -> value b = 0. Proof. unfold value. now intros ->. Qed.
Lemma shift_known_gen op (f : Z -> Z) (P : bit -> Prop) a amt : lvec a -> lvec amt -> tidy (l_xz a) -> tidy (l_xz amt) -> seen a -> seen amt ->
  known a -> known amt ->
  (forall x, vec x -> bw x = lw a -> (x = l_val a \/ x = l_xz a) ->
    exists r, op x (l_val amt) = Ok r /\ typed r (bw x) (bsgn x && bsgn (l_val amt)) /\ (num x = 0 -> x = l_xz a -> num r = 0) /\ (x = l_val a -> P r)) ->
  exists r, logic_shift op a amt = Ok r /\ ltyped r (lw a) (lsgn a && lsgn amt) /\ known r /\ P (l_val r).
Proof.
  intros Va Vk Ta Tk Sa Sk Ka Kk H. unfold logic_shift.
  pose proof (proj2 (any_xz a Va Ta Sa) Ka) as ->. pose proof (proj2 (any_xz amt Vk Tk Sk) Kk) as ->. cbn [orb].
  pose proof (lw_lvec a Va) as W. pose proof (proj2 (xz_num0 a Va) Ka) as N0. destruct Va as (V1 & V2 & _ & _ & SX).
  destruct (H (l_val a) V1 eq_refl (or_introl eq_refl)) as (v & -> & Tv & _ & Pv). cbn [bind].
  destruct (H (l_xz a) V2 W (or_intror eq_refl)) as (m & -> & Tm & Nm & _). cbn [bind].
  eexists. split; [reflexivity|]. split; [|split].
  - split; [exact Tv|]. rewrite SX in Tm. cbn [andb] in Tm. rewrite W in Tm. exact Tm.
  - apply known_of_num0. cbn [l_xz]. auto.
  - cbn [l_val]. auto.
Qed.

Lemma lshift_right a amt : lvec a -> lvec amt -> tidy (l_xz a) -> ltidy amt -> seen a -> seen amt -> known a -> known amt ->
  0 <= value (l_val amt) -> (lw a <= 64 -> lw amt <= 64 /\ value (l_val amt) < lw a) ->
  exists r, logic_shr a amt = Ok r /\ ltyped r (lw a) (lsgn a && lsgn amt) /\ known r /\
    num (l_val r) = num (l_val a) / 2 ^ value (l_val amt).
Proof.
  intros Va Vk Ta [Tv Tk] Sa Sk Ka Kk H0 HC.
  apply (shift_known_gen bit_shr (fun z => z) (fun r => num r = num (l_val a) / 2 ^ value (l_val amt))); auto.
  intros x Vx Wx O. destruct (shift_right x (l_val amt) Vx (proj1 Vk) Tv H0) as (r & E & T & N).
  { rewrite Wx. exact HC. }
  exists r. split; [exact E|]. split; [exact T|]. split.
  - intros N0 _. rewrite N, N0. apply Z.div_0_l. pose proof (pow2_pos (value (l_val amt)) H0). lia.
  - intros ->. exact N.
Qed.
Lemma lshift_left a amt : lvec a -> lvec amt -> tidy (l_xz a) -> ltidy amt -> seen a -> seen amt -> known a -> known amt ->
  0 <= value (l_val amt) ->
  (lw a <= 64 -> lw amt <= 64 /\ (value (l_val amt) = 0 \/ 2 <= lw a /\ value (l_val amt) < (if lw a <=? 32 then 32 else 64))) ->
  exists r, logic_shl a amt = Ok r /\ ltyped r (lw a) (lsgn a && lsgn amt) /\ known r /\
    num (l_val r) = (num (l_val a) * 2 ^ value (l_val amt)) mod 2 ^ lw a.
Proof.
  intros Va Vk Ta [Tv Tk] Sa Sk Ka Kk H0 HC.
  apply (shift_known_gen bit_shl (fun z => z) (fun r => num r = (num (l_val a) * 2 ^ value (l_val amt)) mod 2 ^ lw a)); auto.
  intros x Vx Wx O. destruct (shift_left x (l_val amt) Vx (proj1 Vk) Tv H0) as (r & E & T & N).
  { rewrite Wx. exact HC. }
  exists r. split; [exact E|]. split; [exact T|]. split.
  - intros N0 _. rewrite N, N0. apply Z.mod_0_l. pose proof (pow_bw x). lia.
  - intros ->. exact N.
Qed.
Lemma lshift_arith a amt : lvec a -> lvec amt -> ltidy a -> ltidy amt -> seen a -> seen amt -> known a -> known amt ->
  0 <= value (l_val amt) ->
  (2 <= lw a <= 64 /\ lw amt <= 64 /\ value (l_val amt) < (if lw a <=? 32 then 32 else 64)) \/
  (65 <= lw a /\ (0 <= value (l_val a) \/ lw a <= value (l_val amt))) ->
  exists r, logic_ashr a amt = Ok r /\ ltyped r (lw a) (lsgn a && lsgn amt) /\ known r /\
    num (l_val r) = (value (l_val a) / 2 ^ value (l_val amt)) mod 2 ^ lw a.
Proof.
  intros Va Vk [Ta Ta'] [Tv Tk] Sa Sk Ka Kk H0 HC.
  apply (shift_known_gen bit_ashr (fun z => z) (fun r => num r = (value (l_val a) / 2 ^ value (l_val amt)) mod 2 ^ lw a)); auto.
  pose proof (proj2 (xz_num0 a Va) Ka) as N0. pose proof (lw_lvec a Va) as WX.
  assert (SX : bsgn (l_xz a) = false) by apply Va.
  intros x Vx Wx O. destruct (shift_arith x (l_val amt) Vx (proj1 Vk) Tv H0) as (r & E & T & N).
  { destruct O as [-> | ->]; assumption. }
  { rewrite Wx. destruct HC as [HC|[HC1 HC2]]; [left; exact HC|right]. split; [exact HC1|]. destruct O as [-> | ->]; [exact HC2|].
    left. rewrite (zero_value _ SX N0). lia. }
  exists r. split; [exact E|]. split; [exact T|]. split.
  - intros N1 ->. rewrite N, (zero_value _ SX N0), Z.div_0_l by (pose proof (pow2_pos (value (l_val amt)) H0); lia). apply Z.mod_0_l. pose proof (pow_bw (l_xz a)). lia.
  - intros ->. exact N.
Qed.

(** * comparisons *)
Lemma cmp_unknown op a b : lvec a -> lvec b -> tidy (l_xz a) -> tidy (l_xz b) -> seen a -> seen b ->
  op (l_val a) (l_val b) <> IllFormed -> ~ (known a /\ known b) ->
  exists r, logic_cmp op a b = Ok r /\ ltyped r 1 false /\ sym_at r 0 = SX.
Proof.
  intros Va Vb Ta Tb Sa Sb NI U. unfold logic_cmp.
  assert (bit_any_set (l_xz a) || bit_any_set (l_xz b) = true) as ->.
  { apply orb_true_iff. destruct (bit_any_set (l_xz a)) eqn:Ea; [now left|]. right. apply any_xz in Ea; auto. apply any_xz_unknown; auto. }
  exists (sym1 SX). destruct (sym1_spec SX) as (A & _ & B). split; [|auto]. destruct (op _ _); try reflexivity. now destruct NI.
Qed.
Lemma sym1_bool c : logic_of_bool c = sym1 (sym_of_bool c). Proof. now destruct c. Qed.
Lemma cmp_known op a b c : lvec a -> lvec b -> tidy (l_xz a) -> tidy (l_xz b) -> seen a -> seen b ->
  known a -> known b -> op (l_val a) (l_val b) = Ok c ->
  exists r, logic_cmp op a b = Ok r /\ ltyped r 1 false /\ sym_at r 0 = sym_of_bool c.
Proof.
  intros Va Vb Ta Tb Sa Sb Ka Kb E. unfold logic_cmp.
  rewrite (proj2 (any_xz a Va Ta Sa) Ka), (proj2 (any_xz b Vb Tb Sb) Kb). cbn [orb]. rewrite E. cbn [bind].
  exists (sym1 (sym_of_bool c)). rewrite sym1_bool. destruct (sym1_spec (sym_of_bool c)) as (A & _ & B). auto.
Qed.
Lemma logic_inequality a b r : logic_eq a b = Ok r -> exists r', logic_ne a b = Ok r' /\ sym_at r' 0 = not4 (sym_at r 0).
Proof.
  unfold logic_eq, logic_ne, logic_cmp. rewrite inequality. destruct (_ || _).
  - destruct (bit_eq _ _); cbn; try discriminate; intros [= <-]; exists logic_x; split; reflexivity.
  - destruct (bit_eq _ _) as [c| | | |]; cbn; try discriminate. intros [= <-]. exists (logic_of_bool (negb c)). split; [reflexivity|]. destruct c; reflexivity.
Qed.
Lemma logic_inequality_err a b : (forall r, logic_eq a b <> Ok r) -> logic_ne a b = logic_eq a b.
Proof.
  unfold logic_eq, logic_ne, logic_cmp. rewrite inequality. destruct (_ || _); destruct (bit_eq _ _); cbn; intros H; try reflexivity; now destruct (H _ eq_refl).
Qed.

(** [bit] against [logic] *)
Lemma of_bit_same b : logic_of_bit (bmsb b) (blsb b) (bsgn b) b = Ok (mkLogic b (bit_zero (bmsb b) (blsb b) false)).
Proof. unfold logic_of_bit, bit_convert. rewrite !Z.eqb_refl, Bool.eqb_reflx. reflexivity. Qed.
Lemma of_bit_lvec b : vec b -> let l := mkLogic b (bit_zero (bmsb b) (blsb b) false) in lvec l /\ tidy (l_xz l) /\ known l /\ seen l.
Proof.
  intros V. pose proof V as (_ & A & B & C). destruct (zero_vec (bmsb b) (blsb b) false A B C) as (V' & M & L & S & _ & N & T).
  cbn zeta. split; [unfold lvec; cbn [l_val l_xz]; auto|]. split; [exact T|]. split; [apply known_of_num0; exact N|].
  right. cbn [l_xz]. rewrite N. intros _. reflexivity.
Qed.
Lemma bit_rel_logic_spec lop bop a l : vec a -> lvec l -> tidy (l_xz l) -> seen l ->
  bmsb a = lmsb l -> blsb a = llsb l -> bsgn a = lsgn l -> lop = logic_cmp bop ->
  (~ known l -> bop (l_val l) a <> IllFormed -> bit_rel_logic lop a l = Ok false) /\
  (known l -> forall c, bop (l_val l) a = Ok c -> bit_rel_logic lop a l = Ok c).
Proof.
  intros V L T S E1 E2 E3 ->. unfold bit_rel_logic, logic_cmp_bit. rewrite <- E1, <- E2, <- E3, of_bit_same. cbn [bind].
  unfold logic_cmp. cbn [l_val l_xz].
  destruct (of_bit_lvec a V) as (V' & T' & K' & S'). pose proof (proj2 (any_xz _ V' T' S') K') as Z0. cbn [l_xz] in Z0. rewrite Z0, orb_false_r. split.
  - intros U NI. rewrite (proj2 (any_xz_unknown l L T S) U). destruct (bop _ _); try reflexivity. now destruct NI.
  - intros K c E. rewrite (proj2 (any_xz l L T S) K), E. destruct c; reflexivity.
Qed.
