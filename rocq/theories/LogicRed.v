(** Lemmas about 4-state reductions and truth values. *)
From Coq Require Import ZArith List Bool Lia.
From Verif Require Import Cpp BigNum Bit Logic Spec ZBits Words BigNumProofs BigArith BitProofs BitSlice BitExt BitOps
  BitShift BitCmp BitArith BitMain BitMain2 BitMain3 BitMain4 BitMain5 LogicProofs LogicOps.
Import ListNotations.
Open Scope Z_scope.

Lemma xz_num0 l : lvec l -> (num (l_xz l) = 0 <-> known l).
Proof.
  intros V. pose proof (lw_lvec _ V) as W. pose proof (num_range (l_xz l)) as R. pose proof (bw_pos (l_val l)) as P. fold (lw l) in P. rewrite W in R.
  pose proof (nonzero_iff (lw l) (num (l_xz l)) ltac:(lia) R) as N. unfold known. split.
  - intros E p Hp. rewrite unknown_at. unfold bit_at. rewrite E. apply Z.bits_0.
  - intros K. destruct (Z.eqb_spec (num (l_xz l)) 0); [assumption|]. exfalso.
    destruct (proj1 N eq_refl) as (p & Hp & Hb). specialize (K p Hp). rewrite unknown_at in K. unfold bit_at in K. congruence.
Qed.
Lemma any_xz l : lvec l -> tidy (l_xz l) -> seen l -> (bit_any_set (l_xz l) = false <-> known l).
Proof.
  intros V T S. rewrite <- (xz_num0 l V). rewrite any_set_iff; [| apply V | exact T | unfold seen in S; rewrite (lw_lvec _ V); exact S].
  destruct (Z.eqb_spec (num (l_xz l)) 0); cbn; split; congruence.
Qed.
Lemma any_xz_unknown l : lvec l -> tidy (l_xz l) -> seen l -> (bit_any_set (l_xz l) = true <-> ~ known l).
Proof.
  intros V T S. pose proof (any_xz l V T S). destruct (bit_any_set (l_xz l)); split; try tauto; try discriminate.
  intros _ K. apply H in K. discriminate. 
Qed.
Lemma any_val l : lvec l -> tidy (l_val l) -> (lw l <= 64 \/ visible (num (l_val l))) ->
  bit_any_set (l_val l) = negb (num (l_val l) =? 0).
Proof. intros V T S. apply any_set_iff; [apply V | exact T | exact S]. Qed.

Lemma truth_value l : lvec l -> ltidy l -> seen l -> (lw l <= 64 \/ visible (num (l_val l))) ->
  (logic_bool l = true <-> known l /\ exists p, 0 <= p < lw l /\ sym_at l p = S1) /\
  exists r, logic_lnot l = r /\ ltyped r 1 false /\
    (~ known l -> sym_at r 0 = SX) /\
    (known l -> sym_at r 0 = sym_of_bool (negb (logic_bool l))).
Proof.
  intros V [Tv Tx] S Sv. pose proof (any_xz l V Tx S) as AX. pose proof (any_val l V Tv Sv) as AV.
  pose proof (bw_pos (l_val l)) as P. fold (lw l) in P.
  pose proof (nonzero_iff (lw l) (num (l_val l)) ltac:(lia) (num_range (l_val l))) as N. rewrite <- AV in N.
  unfold logic_bool, logic_lnot. split.
  - rewrite andb_true_iff, negb_true_iff, AX, N. split.
    + intros [K (p & Hp & Hb)]. split; [exact K|]. exists p. split; [exact Hp|]. specialize (K p Hp). rewrite unknown_at in K.
      unfold sym_at. rewrite K. unfold bit_at. now rewrite Hb.
    + intros [K (p & Hp & Hb)]. split; [exact K|]. exists p. split; [exact Hp|]. unfold sym_at in Hb.
      change (Z.testbit (num (l_val l)) p) with (bit_at (l_val l) p). destruct (bit_at (l_val l) p), (bit_at (l_xz l) p); cbn in Hb; congruence.
  - destruct (bit_any_set (l_xz l)).
    + exists (sym1 SX). split; [reflexivity|]. destruct (sym1_spec SX) as (A & B & C). split; [exact A|]. split; [auto|]. intros K. apply AX in K. discriminate.
    + cbn [negb andb]. assert (K : known l) by now apply AX. destruct (bit_any_set (l_val l)).
      * exists (sym1 S0). split; [reflexivity|]. destruct (sym1_spec S0) as (A & B & C). split; [exact A|]. split; [tauto|]. auto.
      * exists (sym1 S1). split; [reflexivity|]. destruct (sym1_spec S1) as (A & B & C). split; [exact A|]. split; [tauto|]. auto.
Qed.

(** * reductions *)
Lemma ltyped_get l n s i : 1 <= n -> ltyped l n s -> 0 <= i < n ->
  bit_get (l_val l) i = Ok (bit_at (l_val l) i) /\ bit_get (l_xz l) i = Ok (bit_at (l_xz l) i).
Proof.
  intros Hn [Tv Tx] Hi. destruct (rd_plain _ _ _ i Tv Hn) as (E & _ & _). destruct (rd_plain _ _ _ i Tx Hn) as (E' & _ & _).
  rewrite !bit_get_spec; rewrite ?E, ?E'; try apply Tv; try apply Tx; auto;
    rewrite ?(typed_bw _ _ _ Hn Tv), ?(typed_bw _ _ _ Hn Tx); assumption.
Qed.
Fixpoint scan_and (l : logic) (is : list Z) : sym :=
  match is with [] => S1 | i :: r => match sym_at l i with S0 => S0 | S1 => scan_and l r | _ => SX end end.
Fixpoint scan_or (l : logic) (is : list Z) : sym :=
  match is with [] => S0 | i :: r => match sym_at l i with S1 => S1 | S0 => scan_or l r | _ => SX end end.
Lemma r_and_scan l n s is : 1 <= n -> ltyped l n s -> Forall (fun i => 0 <= i < n) is ->
  logic_r_and_scan l is = Ok (sym1 (scan_and l is)) /\ logic_r_or_scan l is = Ok (sym1 (scan_or l is)).
Proof.
  intros Hn T H. induction H as [|i r Hi Hr [IH1 IH2]]; [split; reflexivity|]. cbn [logic_r_and_scan logic_r_or_scan scan_and scan_or].
  destruct (ltyped_get l n s i Hn T Hi) as [-> ->]. cbn [bind]. unfold sym_at.
  destruct (bit_at (l_val l) i), (bit_at (l_xz l) i); cbn [negb andb sym_of]; auto.
Qed.
Lemma zrange_Forall a b : Forall (fun i => a <= i < b) (zrange a b).
Proof. unfold zrange. apply Forall_forall. intros x. rewrite in_map_iff. intros (k & <- & Hk). apply in_seq in Hk. lia. Qed.
Lemma r_and_eq l n s : 1 <= n -> ltyped l n s -> logic_r_and l = Ok (sym1 (scan_and l (zrange 0 n))) /\ logic_r_or l = Ok (sym1 (scan_or l (zrange 0 n))).
Proof. intros Hn T. unfold logic_r_and, logic_r_or. rewrite (ltyped_lsize _ _ _ Hn T). apply (r_and_scan l n s); auto. apply zrange_Forall. Qed.

(** the first position (from [lo] upwards) that is not [c] decides *)
Lemma scan_gen (f : logic -> list Z -> sym) (c d : sym) l :
  (f l [] = c) -> (forall i r, f l (i :: r) = if match sym_at l i, c with S0, S0 | S1, S1 => true | _, _ => false end then f l r
     else if unknown (sym_at l i) then SX else d) ->
  unknown c = false -> d = not4 c ->
  forall k lo, 
    ((forall p, lo <= p < lo + Z.of_nat k -> sym_at l p = c) -> f l (zrange lo (lo + Z.of_nat k)) = c) /\
    (forall p, lo <= p < lo + Z.of_nat k -> (forall q, lo <= q < p -> sym_at l q = c) -> sym_at l p <> c ->
       f l (zrange lo (lo + Z.of_nat k)) = if unknown (sym_at l p) then SX else d).
Proof.
  intros F0 FS UC Hd. induction k as [|k IH]; intros lo.
  - split.
    + intros _. replace (lo + Z.of_nat 0) with lo by lia. unfold zrange. rewrite Z.sub_diag. cbn. exact F0.
    + intros p Hp. lia.
  - assert (ZR : zrange lo (lo + Z.of_nat (S k)) = lo :: zrange (lo + 1) (lo + 1 + Z.of_nat k)).
    { unfold zrange. replace (Z.to_nat (lo + Z.of_nat (S k) - lo)) with (S k) by lia. replace (Z.to_nat (lo + 1 + Z.of_nat k - (lo + 1))) with k by lia.
      cbn [seq map]. f_equal; [lia|]. rewrite <- seq_shift, map_map. apply map_ext. intros. lia. }
    rewrite ZR, FS. specialize (IH (lo + 1)). destruct IH as [IH1 IH2]. split.
    + intros A. rewrite (A lo) by lia. destruct c; try discriminate; apply IH1; intros; apply A; lia.
    + intros p Hp Q N. destruct (Z.eq_dec p lo) as [->|NE].
      * destruct (sym_at l lo) eqn:E, c; cbn in *; try discriminate; try congruence; reflexivity.
      * rewrite (Q lo) by lia. destruct c; try discriminate; apply IH2; auto; try lia; intros; apply Q; lia.
Qed.
Lemma first_not (P : Z -> bool) n : 0 <= n -> (forall p, 0 <= p < n -> P p = true) \/
  exists p, 0 <= p < n /\ P p = false /\ forall q, 0 <= q < p -> P q = true.
Proof.
  intros Hn. pattern n. apply natlike_ind; [left; lia | | exact Hn]. intros m Hm [A|(p & Hp & N & Q)].
  - destruct (P m) eqn:E.
    + left. intros p Hp. destruct (Z.eq_dec p m) as [->|]; [assumption|]. apply A. lia.
    + right. exists m. repeat split; try lia; assumption.
  - right. exists p. repeat split; try lia; assumption.
Qed.
Definition symb (a b : sym) : bool := match a, b with S0, S0 | S1, S1 | SX, SX | SZ, SZ => true | _, _ => false end.
Lemma symb_eq a b : symb a b = true <-> a = b. Proof. destruct a, b; cbn; split; congruence. Qed.

Lemma red_scan l n s : 1 <= n -> ltyped l n s ->
  exists ra ro, logic_r_and l = Ok ra /\ logic_r_or l = Ok ro /\ ltyped ra 1 false /\ ltyped ro 1 false /\
   ((forall p, 0 <= p < n -> sym_at l p = S1) -> sym_at ra 0 = S1) /\
   (forall p, 0 <= p < n -> (forall q, 0 <= q < p -> sym_at l q = S1) -> sym_at l p <> S1 ->
      sym_at ra 0 = if unknown (sym_at l p) then SX else S0) /\
   ((forall p, 0 <= p < n -> sym_at l p = S0) -> sym_at ro 0 = S0) /\
   (forall p, 0 <= p < n -> (forall q, 0 <= q < p -> sym_at l q = S0) -> sym_at l p <> S0 ->
      sym_at ro 0 = if unknown (sym_at l p) then SX else S1).
Proof.
  intros Hn T. destruct (r_and_eq l n s Hn T) as [E1 E2]. exists (sym1 (scan_and l (zrange 0 n))), (sym1 (scan_or l (zrange 0 n))).
  split; [exact E1|]. split; [exact E2|]. split; [apply sym1_spec|]. split; [apply sym1_spec|].
  destruct (scan_gen scan_and S1 S0 l eq_refl) with (k := Z.to_nat n) (lo := 0) as [A1 A2]; auto. { intros i r. cbn. now destruct (sym_at l i). }
  destruct (scan_gen scan_or S0 S1 l eq_refl) with (k := Z.to_nat n) (lo := 0) as [B1 B2]; auto. { intros i r. cbn. now destruct (sym_at l i). }
  replace (0 + Z.of_nat (Z.to_nat n)) with n in * by lia.
  destruct (sym1_spec (scan_and l (zrange 0 n))) as (_ & _ & ->). destruct (sym1_spec (scan_or l (zrange 0 n))) as (_ & _ & ->).
  repeat split; assumption.
Qed.

(** the IEEE results, when no unknown position lies below a deciding one *)
Lemma red_and l n s : 1 <= n -> ltyped l n s -> (forall p q, 0 <= p < q -> q < n -> unknown (sym_at l p) = true -> sym_at l q <> S0) ->
  exists r, logic_r_and l = Ok r /\ ltyped r 1 false /\
    ((exists p, 0 <= p < n /\ sym_at l p = S0) -> sym_at r 0 = S0) /\
    ((forall p, 0 <= p < n -> sym_at l p <> S0) -> ~ known l -> sym_at r 0 = SX) /\
    ((forall p, 0 <= p < n -> sym_at l p = S1) -> sym_at r 0 = S1).
Proof.
  intros Hn T NZ. destruct (red_scan l n s Hn T) as (r & _ & E & _ & Tr & _ & A & B & _). exists r. split; [exact E|]. split; [exact Tr|].
  destruct (first_not (fun p => symb (sym_at l p) S1) n ltac:(lia)) as [F|(p & Hp & N & Q)].
  - assert (F' : forall p, 0 <= p < n -> sym_at l p = S1) by (intros; apply symb_eq; auto). split; [|split; [|exact A]].
    + intros (p & Hp & E0). rewrite (F' p Hp) in E0. discriminate.
    + intros _ K. exfalso. apply K. intros p Hp. rewrite (ltyped_lw _ _ _ Hn T) in Hp. now rewrite F' by assumption.
  - assert (Q' : forall q, 0 <= q < p -> sym_at l q = S1) by (intros; apply symb_eq; auto).
    assert (N' : sym_at l p <> S1) by (intros H; apply symb_eq in H; congruence). specialize (B p Hp Q' N').
    destruct (unknown (sym_at l p)) eqn:U; rewrite B.
    + split; [|split].
      * intros (q & Hq & E0). exfalso. destruct (Z.lt_trichotomy q p) as [L|[->|L]].
        -- rewrite Q' in E0 by lia. discriminate. -- rewrite E0 in U. discriminate. -- apply (NZ p q); auto; lia.
      * reflexivity.
      * intros C. rewrite C in N' by assumption. congruence.
    + assert (sym_at l p = S0) by (destruct (sym_at l p); cbn in *; congruence). split; [reflexivity|]. split.
      * intros C. exfalso. apply (C p Hp). assumption.
      * intros C. rewrite C in N' by assumption. congruence.
Qed.
Lemma red_or l n s : 1 <= n -> ltyped l n s -> (forall p q, 0 <= p < q -> q < n -> unknown (sym_at l p) = true -> sym_at l q <> S1) ->
  exists r, logic_r_or l = Ok r /\ ltyped r 1 false /\
    ((exists p, 0 <= p < n /\ sym_at l p = S1) -> sym_at r 0 = S1) /\
    ((forall p, 0 <= p < n -> sym_at l p <> S1) -> ~ known l -> sym_at r 0 = SX) /\
    ((forall p, 0 <= p < n -> sym_at l p = S0) -> sym_at r 0 = S0).
Proof.
  intros Hn T NZ. destruct (red_scan l n s Hn T) as (_ & r & _ & E & _ & Tr & _ & _ & A & B). exists r. split; [exact E|]. split; [exact Tr|].
  destruct (first_not (fun p => symb (sym_at l p) S0) n ltac:(lia)) as [F|(p & Hp & N & Q)].
  - assert (F' : forall p, 0 <= p < n -> sym_at l p = S0) by (intros; apply symb_eq; auto). split; [|split; [|exact A]].
    + intros (p & Hp & E0). rewrite (F' p Hp) in E0. discriminate.
    + intros _ K. exfalso. apply K. intros p Hp. rewrite (ltyped_lw _ _ _ Hn T) in Hp. now rewrite F' by assumption.
  - assert (Q' : forall q, 0 <= q < p -> sym_at l q = S0) by (intros; apply symb_eq; auto).
    assert (N' : sym_at l p <> S0) by (intros H; apply symb_eq in H; congruence). specialize (B p Hp Q' N').
    destruct (unknown (sym_at l p)) eqn:U; rewrite B.
    + split; [|split].
      * intros (q & Hq & E0). exfalso. destruct (Z.lt_trichotomy q p) as [L|[->|L]].
        -- rewrite Q' in E0 by lia. discriminate. -- rewrite E0 in U. discriminate. -- apply (NZ p q); auto; lia.
      * reflexivity.
      * intros C. rewrite C in N' by assumption. congruence.
    + assert (sym_at l p = S1) by (destruct (sym_at l p); cbn in *; congruence). split; [reflexivity|]. split.
      * intros C. exfalso. apply (C p Hp). assumption.
      * intros C. rewrite C in N' by assumption. congruence.
Qed.

(** complemented reductions *)
Lemma lnot_sym1 s : logic_lnot (sym1 s) = sym1 (not4 s). Proof. destruct s; reflexivity. Qed.
Lemma red_compl l n s : 1 <= n -> ltyped l n s ->
  (exists r r', logic_r_and l = Ok r /\ logic_r_nand l = Ok r' /\ sym_at r' 0 = not4 (sym_at r 0)) /\
  (exists r r', logic_r_or l = Ok r /\ logic_r_nor l = Ok r' /\ sym_at r' 0 = not4 (sym_at r 0)).
Proof.
  intros Hn T. destruct (r_and_eq l n s Hn T) as [E1 E2]. unfold logic_r_nand, logic_r_nor. rewrite E1, E2. unfold omap. cbn [bind]. rewrite !lnot_sym1.
  split; eexists; eexists; (split; [reflexivity|]; split; [reflexivity|]); now rewrite !(proj2 (proj2 (sym1_spec _))).
Qed.

(** * population count *)
Lemma ones_double k z (b : bool) : ones (Z.of_nat (S k)) (2 * z + Z.b2z b) = Z.b2z b + ones (Z.of_nat k) z.
Proof.
  unfold ones. rewrite !Nat2Z.id. cbn [seq]. rewrite <- seq_shift.
  assert (H : forall (f : nat -> bool) l, filter f (map S l) = map S (filter (fun i => f (S i)) l)).
  { intros f l. induction l; cbn; [reflexivity|]. destruct (f (S a)); cbn; now rewrite IHl. }
  cbn [filter]. rewrite H. replace (Z.of_nat 0) with 0 by lia. rewrite Z.testbit_0_r.
  assert (E : filter (fun i => Z.testbit (2 * z + Z.b2z b) (Z.of_nat (S i))) (seq 0 k) = filter (fun i => Z.testbit z (Z.of_nat i)) (seq 0 k)).
  { apply filter_ext. intros i. rewrite Nat2Z.inj_succ. apply Z.testbit_succ_r. lia. }
  rewrite E. destruct b; cbn [length Z.b2z]; rewrite map_length; lia.
Qed.
Lemma ones_0 k : ones (Z.of_nat k) 0 = 0.
Proof. unfold ones. rewrite Nat2Z.id. generalize 0%nat. induction k; intros s; cbn; [reflexivity|]. rewrite Z.testbit_0_l. apply IHk. Qed.
Lemma popcount_ones k : forall z, 0 <= z < 2 ^ Z.of_nat k -> z_popcount z = ones (Z.of_nat k) z.
Proof.
  induction k as [|k IH]; intros z Hz.
  - change (2 ^ Z.of_nat 0) with 1 in Hz. replace z with 0 by lia. reflexivity.
  - rewrite Nat2Z.inj_succ, Z.pow_succ_r in Hz by lia. destruct z as [|p|p]; [now rewrite ones_0 | | lia].
    destruct p as [p|p|].
    + change (Z.pos p~1) with (2 * Z.pos p + Z.b2z true). rewrite ones_double, <- IH by lia. reflexivity.
    + change (Z.pos p~0) with (2 * Z.pos p + Z.b2z false). rewrite ones_double, <- IH by lia. reflexivity.
    + change 1 with (2 * 0 + Z.b2z true). rewrite ones_double, ones_0. reflexivity.
Qed.
Lemma filter_le_len {A} (f : A -> bool) l : (length (filter f l) <= length l)%nat.
Proof. induction l as [|a l IH]; cbn; [lia|]. destruct (f a); cbn; lia. Qed.
Lemma ones_range n z : 0 <= n -> 0 <= ones n z <= n.
Proof. intros Hn. unfold ones. pose proof (filter_le_len (fun k => Z.testbit z (Z.of_nat k)) (seq 0 (Z.to_nat n))). rewrite seq_length in H. lia. Qed.

(** [r_xor] computes the parity of the zeros *)
Lemma red_xor l n : 2 <= n <= 64 -> ltyped l n false -> ltidy l ->
  exists r r', logic_r_xor l = Ok r /\ logic_r_xnor l = Ok r' /\ ltyped r 1 false /\ ltyped r' 1 false /\
    sym_at r' 0 = not4 (sym_at r 0) /\
    (~ known l -> sym_at r 0 = SX) /\
    (known l -> sym_at r 0 = sym_of_bool (Z.odd (n - ones n (num (l_val l))))).
Proof.
  intros Hn T [Dv Dx]. pose proof T as [Tv Tx]. assert (H1 : 1 <= n) by lia. unfold logic_r_xor, logic_r_xnor, logic_r_xor.
  assert (Hp : bit_popcount (l_val l) = Ok (ones n (num (l_val l)))).
  { destruct (typed_cases _ n false ltac:(lia) Tv) as [(v & E & R & I)|(ws & E & R & I)]; [|lia].
    pose proof (tidy_num_u _ n ltac:(lia) Tv Dv) as NS. pose proof (num_range (l_val l)) as NR. rewrite (typed_bw _ _ _ H1 Tv) in NR.
    unfold bit_popcount. rewrite E in *. cbn [bval bsgn]. unfold bsize. cbn [bmsb blsb]. change (vsize (n - 1) 0) with (width (n - 1) 0). rewrite width_plain by lia.
    destruct (Z.ltb_spec 1 n); [|lia]. cbn [negb andb requires]. unfold stored in NS. cbn [bval] in NS. rewrite NS in *.
    rewrite (popcount_ones (Z.to_nat n)); rewrite ?Z2Nat.id by lia; auto. }
  rewrite Hp. cbn [bind]. rewrite (ltyped_lsize _ _ _ H1 T).
  pose proof (any_xz l (ltyped_lvec _ _ _ T) Dx ltac:(left; rewrite (ltyped_lw _ _ _ H1 T); lia)) as AX.
  pose proof (ones_range n (num (l_val l)) ltac:(lia)) as OR.
  rewrite u64_id by lia.
  assert (G : forall s, exists r r', Ok (sym1 s) = Ok r /\ omap logic_lnot (Ok (sym1 s)) = Ok r' /\ ltyped r 1 false /\ ltyped r' 1 false /\ sym_at r' 0 = not4 (sym_at r 0) /\ sym_at r 0 = s).
  { intros s. exists (sym1 s), (sym1 (not4 s)). destruct (sym1_spec s) as (A & _ & B). destruct (sym1_spec (not4 s)) as (A' & _ & B'). unfold omap. cbn [bind]. rewrite lnot_sym1, B, B'. repeat split; try apply A; try apply A'. }
  destruct (bit_any_set (l_xz l)).
  - destruct (G SX) as (r & r' & A & B & C & D & E & F). exists r, r'. do 4 (split; [assumption|]). split; [exact E|]. split; [auto|]. intros K. apply AX in K. discriminate.
  - assert (K : known l) by now apply AX.
    destruct (G (sym_of_bool (Z.odd (n - ones n (num (l_val l)))))) as (r & r' & A & B & C & D & E & F).
    exists r, r'. rewrite <- A, <- B. split; [|split; [|split; [exact C|split; [exact D|split; [exact E|split; [tauto|intros _; exact F]]]]]].
    + rewrite Zmod_odd. destruct (Z.odd _); reflexivity.
    + rewrite Zmod_odd. destruct (Z.odd _); reflexivity.
Qed.
Lemma red_xor_rejected l : lvec l -> lw l = 1 \/ 65 <= lw l \/ lsgn l = true -> logic_r_xor l = IllFormed /\ logic_r_xnor l = IllFormed.
Proof.
  intros V H. unfold logic_r_xor, logic_r_xnor, logic_r_xor.
  assert (bit_popcount (l_val l) = IllFormed) as ->; [|split; reflexivity]. unfold bit_popcount.
  change (bsize (l_val l)) with (lw l). change (bsgn (l_val l)) with (lsgn l).
  destruct (vec_cases (l_val l) (proj1 V)) as [(v & E & R & _)|(ws & E & R & _)]; rewrite E; [|reflexivity]. fold (lw l) in R.
  destruct H as [E1 | [H | ES]]; [rewrite E1; now rewrite andb_false_r | lia | now rewrite ES].
Qed.
