(** 4-state &, |, ^ and ~ meet the reference machine of SpecFour.v. *)
From Coq Require Import ZArith List Bool Lia Zify ZifyBool.
From Verif Require Import Cpp BigNum Bit Logic Spec SpecExact SpecMachine SpecWide SpecFour ZBits Words BigNumProofs BigArith BitProofs BitSlice BitExt BitOps BitShift BitArith BitCmp BitMain BitMain2 BitMain3 BitMain4 BitMain5 LogicProofs LogicOps MachineProofs MachineProofs2 MachineProofs3 MachineProofs4 MachineProofs5 WideProofs WideProofs2 WideProofs3 WideProofs4 Reach ReachProofs ReachProofs2 ReachProofs4 FourProofs FourProofs2.
From Verif Require SpecExact4.
Import ListNotations.
Open Scope Z_scope.
Local Ltac Zify.zify_post_hook ::= idtac.

(** * numbers from their bits *)
Lemma gather_ext k g h : (forall p, 0 <= p < Z.of_nat k -> g p = h p) -> gather k g = gather k h.
Proof. induction k as [|k IH]; intros H; cbn [gather]; [reflexivity|]. rewrite IH by (intros; apply H; lia). rewrite (H (Z.of_nat k)) by lia. reflexivity. Qed.
Lemma gather_range k g : 0 <= gather k g < 2 ^ Z.of_nat k.
Proof.
  induction k as [|k IH]; cbn [gather]; [cbn; lia|]. rewrite Nat2Z.inj_succ, Z.pow_succ_r by lia. pose proof (pow2_pos (Z.of_nat k) ltac:(lia)). destruct (g _); lia.
Qed.
Lemma gather_self k : forall z, 0 <= z < 2 ^ Z.of_nat k -> gather k (Z.testbit z) = z.
Proof.
  induction k as [|k IH]; intros z Hz; cbn [gather]; [cbn in Hz; lia|]. rewrite Nat2Z.inj_succ, Z.pow_succ_r in Hz by lia. pose proof (pow2_pos (Z.of_nat k) ltac:(lia)) as P.
  assert (E : gather k (Z.testbit z) = z mod 2 ^ Z.of_nat k).
  { rewrite <- (IH (z mod 2 ^ Z.of_nat k)) by (apply Z.mod_pos_bound; lia). apply gather_ext. intros p Hp. rewrite Z.mod_pow2_bits_low by lia. reflexivity. }
  rewrite E, Z.testbit_odd, Z.shiftr_div_pow2 by lia.
  pose proof (Z.div_mod z (2 ^ Z.of_nat k) ltac:(lia)) as D. pose proof (Z.mod_pos_bound z (2 ^ Z.of_nat k) ltac:(lia)) as B.
  assert (Q : z / 2 ^ Z.of_nat k = 0 \/ z / 2 ^ Z.of_nat k = 1).
  { assert (0 <= z / 2 ^ Z.of_nat k < 2); [|lia]. split; [apply Z.div_pos; lia|apply Z.div_lt_upper_bound; lia]. }
  destruct Q as [Q | Q]; rewrite Q in *; cbn [Z.odd]; lia.
Qed.
Lemma gather_num n b g : 1 <= n -> bw b = n -> (forall p, 0 <= p < n -> bit_at b p = g p) -> num b = gather (Z.to_nat n) g.
Proof.
  intros H W E. pose proof (num_range b) as R. rewrite W in R. rewrite <- (gather_self (Z.to_nat n) (num b)) by (rewrite Z2Nat.id by lia; lia).
  apply gather_ext. intros p Hp. apply E. lia.
Qed.
Lemma at_stored b p : vec b -> 0 <= p < bw b -> bit_at b p = Z.testbit (stored b) p.
Proof. intros V H. unfold bit_at, num. rewrite Z.mod_pow2_bits_low by lia. reflexivity. Qed.
Lemma high_sym v m : high (sym_of v m) = v. Proof. destruct v, m; reflexivity. Qed.
Lemma unknown_sym v m : unknown (sym_of v m) = m. Proof. destruct v, m; reflexivity. Qed.
Lemma by_symbols r n g : 1 <= n -> ltyped r n false -> ltidy r -> (forall p, 0 <= p < n -> sym_at r p = g p) -> r = from_syms n g.
Proof.
  intros H [(V & [M N] & S1) (X & [M' N'] & S')] [T1 T2] E. pose proof (width_n n H) as W.
  unfold from_syms, vec4, object4. destruct r as [v x]. cbn [l_val l_xz] in *.
  rewrite (tidy_object v V T1 S1) at 1. rewrite (tidy_object x X T2 S') at 1. rewrite M, N, M', N'.
  assert (Wv : bw v = n) by (unfold bw; rewrite M, N; exact W). assert (Wx : bw x = n) by (unfold bw; rewrite M', N'; exact W).
  rewrite (gather_num n v (fun p => high (g p)) H Wv), (gather_num n x (fun p => unknown (g p)) H Wx); [reflexivity|..]; intros p Hp; rewrite <- E by exact Hp; unfold sym_at; cbn [l_val l_xz].
  - rewrite unknown_sym. reflexivity.
  - rewrite high_sym. reflexivity.
Qed.

(** * ascending operands *)
Lemma bitwise_cases op c a b : (exists r, any_bitwise op c a b = Ok r) \/ any_bitwise op c a b = IllFormed.
Proof.
  unfold any_bitwise, bitwise, combined. cbn zeta. destruct (_ && _); destruct (negb _); [right; reflexivity|left; eexists; reflexivity|right; reflexivity|left; eexists; reflexivity].
Qed.
Lemma bitwise_ascending op c a b : bw a = bw b -> bmsb b < blsb b -> any_bitwise op c a b = IllFormed.
Proof.
  intros E L. unfold any_bitwise, bitwise, combined, pairs_up. cbn zeta. rewrite E, Z.eqb_refl. replace (blsb b <=? bmsb b) with false by lia. destruct (_ && _); reflexivity.
Qed.
Definition gentle (op : bit -> bit -> outcome bit) : Prop := forall a b, vec a -> vec b -> (exists r, op a b = Ok r) \/ op a b = IllFormed.
Lemma gentle_and : gentle bit_and. Proof. intros a b V U. rewrite and_any by assumption. apply bitwise_cases. Qed.
Lemma gentle_or : gentle bit_or. Proof. intros a b V U. rewrite or_any by assumption. apply bitwise_cases. Qed.
Lemma gentle_xor : gentle bit_xor. Proof. intros a b V U. rewrite xor_any by assumption. apply bitwise_cases. Qed.
Lemma not_vec a : vec a -> vec (bit_not a).
Proof. intros V. destruct (bitwise_not a V) as [(T & _) _]. exact T. Qed.
Lemma mask_ascending a b : lvec a -> lvec b -> lw a = lw b -> lmsb a < llsb a -> logic_mask a b = IllFormed.
Proof.
  intros La Lb E A. pose proof La as (Va & Xa & _). pose proof Lb as (Vb & Xb & _). unfold logic_mask. pose proof (lw_xz a La) as Wa. pose proof (lw_xz b Lb) as Wb.
  destruct (gentle_xor (l_xz a) (l_xz b) Xa Xb) as [(x & H1) | H1]; rewrite H1; [|reflexivity]. cbn [bind]. destruct (good_xor _ _ _ Xa Xb H1) as (V1 & M1 & N1 & _).
  assert (W1 : bw x = lw a) by (unfold bw; rewrite M1, N1, Wa, Wb, <- E, Z.max_id; apply width_n; unfold lw; pose proof (bw_pos (l_val a)); lia).
  pose proof (not_vec _ Xa) as VN. destruct (gentle_and x (bit_not (l_xz a)) V1 VN) as [(y & H2) | H2]; rewrite H2; [|reflexivity]. cbn [bind].
  destruct (good_and _ _ _ V1 VN H2) as (V2 & M2 & N2 & _). destruct (bitwise_not _ Xa) as [(_ & [MN NN] & _) _].
  assert (WN : bw (bit_not (l_xz a)) = lw a) by (unfold bw; rewrite MN, NN, Wa; apply width_n; unfold lw; pose proof (bw_pos (l_val a)); lia).
  rewrite W1, WN, Z.max_id in M2. assert (W2 : bw y = lw a) by (unfold bw; rewrite M2, N2; apply width_n; unfold lw; pose proof (bw_pos (l_val a)); lia).
  rewrite and_any by assumption. rewrite bitwise_ascending by (assumption || exact A). reflexivity.
Qed.
Lemma and_ascending a b : lvec a -> lvec b -> lw a = lw b -> lmsb a < llsb a -> logic_and_same a b = IllFormed.
Proof.
  intros La Lb E A. pose proof La as (Va & Xa & _). pose proof Lb as (Vb & Xb & _). unfold logic_and_same. rewrite mask_ascending by assumption.
  destruct (l_same_size_op _ _); cbn [requires]; [|reflexivity]. destruct (gentle_and _ _ Va Vb) as [(v & ->) | ->]; [|reflexivity]. cbn [bind]. destruct (gentle_and _ _ Xa Xb) as [(m & ->) | ->]; reflexivity.
Qed.
Lemma gentle_compound op a b : gentle op -> good op -> vec a -> vec b -> bw b = bw a -> (exists r, bit_compound op a b = Ok r) \/ bit_compound op a b = IllFormed.
Proof.
  intros G D V U E. unfold bit_compound. destruct (compound_ok _ _); cbn [requires]; [|right; reflexivity]. destruct (G a b V U) as [(r & H) | ->]; [|right; reflexivity]. rewrite H. cbn [bind].
  destruct (D a b r V U H) as (Vr & M & N & _). rewrite assign_same; [cbn [bind]; left; eexists; reflexivity|exact V|exact Vr|].
  unfold bw at 1. rewrite M, N, E, Z.max_id. apply width_n. apply bw_pos.
Qed.
Lemma or_ascending a b : lvec a -> lvec b -> lw a = lw b -> lmsb a < llsb a -> logic_or_same a b = IllFormed.
Proof.
  intros La Lb E A. pose proof La as (Va & Xa & _). pose proof Lb as (Vb & Xb & _). unfold logic_or_same. rewrite mask_ascending by assumption. pose proof (lw_xz a La) as Wa. pose proof (lw_xz b Lb) as Wb.
  destruct (l_same_size_op _ _); cbn [requires]; [|reflexivity]. destruct (gentle_or _ _ Va Vb) as [(v & H1) | ->]; [|reflexivity]. rewrite H1. cbn [bind]. destruct (gentle_or _ _ Xa Xb) as [(m & H2) | ->]; [|reflexivity]. rewrite H2. cbn [bind].
  destruct (good_or _ _ _ Va Vb H1) as (V1 & M1 & N1 & _). destruct (good_or _ _ _ Xa Xb H2) as (V2 & M2 & N2 & _). rewrite Wa, Wb in M2. fold (lw a) (lw b) in M1. rewrite <- E, Z.max_id in M1, M2.
  assert (P : 1 <= lw a) by apply bw_pos.
  assert (W1 : bw v = lw a) by (unfold bw; rewrite M1, N1; apply width_n; exact P). assert (W2 : bw m = lw a) by (unfold bw; rewrite M2, N2; apply width_n; exact P).
  assert (WN : bw (bit_not m) = bw v) by (destruct (bitwise_not _ V2) as [(_ & [MN NN] & _) _]; unfold bw at 1; rewrite MN, NN, W2, W1; apply width_n; exact P).
  unfold bit_and_assign. destruct (gentle_compound bit_and v (bit_not m) gentle_and good_and V1 (not_vec m V2) WN) as [(r & ->) | ->]; reflexivity.
Qed.

(** * equal widths *)
Lemma sym_own l p : lvec l -> 0 <= p < lw l -> sym_wide l (lw l) p = sym_at l p.
Proof.
  intros L H. unfold sym_wide, sym_at, widened. rewrite lw_xz by exact L. fold (lw l). rewrite Z.eqb_refl. rewrite !at_stored by (try (apply lv_val; exact L); try (apply lv_xz; exact L); rewrite ?lw_xz by exact L; exact H). reflexivity.
Qed.
Lemma from_ext n g h : (forall p, 0 <= p < n -> g p = h p) -> from_syms n g = from_syms n h.
Proof.
  intros H. unfold from_syms. rewrite (gather_ext (Z.to_nat n) (fun p => high (g p)) (fun p => high (h p))) by (intros; rewrite H by lia; reflexivity).
  rewrite (gather_ext (Z.to_nat n) (fun p => unknown (g p)) (fun p => unknown (h p))) by (intros; rewrite H by lia; reflexivity). reflexivity.
Qed.
Lemma same_four op table a b n : lopnd a n -> lopnd b n -> (lsgn a = true -> lsgn b = true -> op a b = IllFormed) ->
  (lsgn a && lsgn b = false -> exists r, op a b = Ok r /\ ltyped r n false /\ ltidy r /\ forall p, 0 <= p < n -> sym_at r p = table (sym_at a p) (sym_at b p)) ->
  op a b = if lsgn a && lsgn b then IllFormed else Ok (from_syms n (fun p => table (sym_at a p) (sym_at b p))).
Proof.
  intros La Lb R G. destruct (lsgn a && lsgn b) eqn:Q; [apply andb_true_iff in Q as [Q1 Q2]; apply R; assumption|].
  destruct (G eq_refl) as (r & -> & T & D & E). apply f_equal. apply by_symbols; try assumption. destruct La as (_ & W & _). rewrite <- W. apply bw_pos.
Qed.
Lemma and_code_lib : forall x y, and_code x y = SpecExact4.lib_and x y. Proof. intros [] []; reflexivity. Qed.
Lemma or_code_lib : forall x y, or_code x y = SpecExact4.lib_or x y. Proof. intros [] []; reflexivity. Qed.
Lemma and_same_four a b n : lopnd a n -> lopnd b n -> logic_and_same a b = if lsgn a && lsgn b then IllFormed else Ok (from_syms n (fun p => SpecExact4.lib_and (sym_at a p) (sym_at b p))).
Proof.
  intros La Lb. apply (same_four logic_and_same); try assumption; [intros S1 S2; apply (signed_rejected a b n); assumption|]. intros Q.
  destruct (and_same_spec a b n La Lb Q) as (r & H & T & D & E). exists r. repeat (split; [assumption|]). intros p Hp. rewrite E by exact Hp. apply and_code_lib.
Qed.
Lemma or_same_four a b n : lopnd a n -> lopnd b n -> logic_or_same a b = if lsgn a && lsgn b then IllFormed else Ok (from_syms n (fun p => SpecExact4.lib_or (sym_at a p) (sym_at b p))).
Proof.
  intros La Lb. apply (same_four logic_or_same); try assumption; [intros S1 S2; apply (signed_rejected a b n); assumption|]. intros Q.
  destruct (or_same_spec a b n La Lb Q) as (r & H & T & D & E). exists r. repeat (split; [assumption|]). intros p Hp. rewrite E by exact Hp. apply or_code_lib.
Qed.
Lemma refuses_ascending (op : logic -> logic -> outcome logic) a b : (forall a b, lvec a -> lvec b -> lw a = lw b -> lmsb a < llsb a -> op a b = IllFormed) -> (forall a b, l_same_size_op (lsize a) b = false -> op a b = IllFormed) ->
  lvec a -> lvec b -> lw a = lw b -> (llsb a <=? lmsb a) && (llsb b <=? lmsb b) = false -> op a b = IllFormed.
Proof.
  intros A B La Lb E H. apply andb_false_iff in H as [H | H]; [apply A; try assumption; lia|]. apply B. unfold l_same_size_op, same_size_op. fold (llsb b) (lmsb b). rewrite H. apply andb_false_r.
Qed.

(** * different widths *)
Lemma widened_bit x m r p : vec x -> bw x <= m -> 0 <= p < m -> stored r = (if m <=? 64 then stored x else widened x m) -> Z.testbit (stored r) p = Z.testbit (widened x m) p.
Proof.
  intros V H Hp ->. destruct (Z.leb_spec m 64); [|reflexivity]. unfold widened, small. destruct (bw x =? m); [reflexivity|]. replace (bw x <=? 64) with true by lia. rewrite Z.mod_pow2_bits_low by lia. reflexivity.
Qed.
Lemma extend_four l m : lvec l -> lw l <= m < 2 ^ 31 ->
  (logic_extend l m = IllFormed /\ lw l = m /\ plain_range l = false) \/
  (exists r, logic_extend l m = Ok r /\ lopnd r m /\ lsgn r = lsgn l /\ (forall p, 0 <= p < m -> sym_at r p = sym_wide l m p) /\ (lw l < m \/ plain_range l = true)).
Proof.
  intros L H. unfold logic_extend. change (lsize l) with (lw l). replace (lw l <=? m) with true by lia. cbn [requires]. pose proof (lw_xz l L) as XW. pose proof (own_mask l L) as OM. assert (P : 1 <= lw l) by apply bw_pos.
  destruct (extend_cases (l_val l) m (lv_val l L) H) as [(-> & E1 & O1) | (v & -> & Vv & Mv & Lv & Sv & Wv & _ & Tv & Qv)]; cbn [bind].
  - left. split; [reflexivity|]. split; [exact E1|]. unfold own_type in O1. apply orb_false_iff in O1 as [_ O1]. exact O1.
  - destruct (extend_cases (l_xz l) m (lv_xz l L) ltac:(lia)) as [(-> & E2 & O2) | (x & -> & Vx & Mx & Lx & Sx & Wx & _ & Tx & Qx)]; cbn [bind].
    + left. split; [reflexivity|]. rewrite OM in O2. split; [lia|exact O2].
    + right. eexists. split; [reflexivity|]. assert (SX : bsgn (l_xz l) = false) by apply L. split; [|split; [exact Sv|split]].
      * split; [|split; [exact Wv|unfold llsb, lmsb; cbn [l_val]; lia]]. apply (lvec_mk v x (m - 1) 0 (bsgn (l_val l))); (split; [assumption|]); [auto|]. split; [exact Mx|]. split; [exact Lx|congruence].
      * intros p Hp. unfold sym_at, sym_wide. cbn [l_val l_xz]. rewrite !at_stored by (assumption || lia).
        rewrite (widened_bit (l_val l) m v p), (widened_bit (l_xz l) m x p); try assumption; try (apply L); try exact (proj1 H); try lia. reflexivity.
      * rewrite OM, XW in Qx. exact Qx.
Qed.
Lemma mixed_four (op : logic -> logic -> outcome logic) table a b : lvec a -> lvec b -> lw a <> lw b ->
  (forall a b n, lopnd a n -> lopnd b n -> op a b = if lsgn a && lsgn b then IllFormed else Ok (from_syms n (fun p => table (sym_at a p) (sym_at b p)))) ->
  logic_mixed op a b = four_table table a b.
Proof.
  intros La Lb E O. destruct (vec_facts _ (lv_val a La)) as (_ & _ & Wa). destruct (vec_facts _ (lv_val b Lb)) as (_ & _ & Wb). fold (lw a) in Wa. fold (lw b) in Wb.
  unfold logic_mixed, four_table, widths_ok. cbn zeta. change (lsize a) with (lw a). change (lsize b) with (lw b). replace (lw a =? lw b) with false by lia. cbn [orb]. set (m := Z.max (lw a) (lw b)).
  assert (W : (if lw a <? lw b then b else a) = a /\ lw a = m /\ lw b < m \/ (if lw a <? lw b then b else a) = b /\ lw b = m /\ lw a < m) by (destruct (Z.ltb_spec (lw a) (lw b)); [right|left]; (split; [reflexivity|lia])).
  destruct (extend_four a m La ltac:(lia)) as [(-> & E1 & O1) | (r & -> & Lr & Sr & Yr & Qr)]; cbn [bind].
  { destruct W as [(-> & U1 & U2) | (_ & U1 & U2)]; [|exfalso; lia]. rewrite O1. reflexivity. }
  destruct (extend_four b m Lb ltac:(lia)) as [(-> & E2 & O2) | (q & -> & Lq & Sq & Yq & Qq)]; cbn [bind].
  { destruct W as [(_ & U1 & U2) | (-> & U1 & U2)]; [exfalso; lia|]. rewrite O2. reflexivity. }
  assert (OK : plain_range (if lw a <? lw b then b else a) = true) by (destruct W as [(-> & U1 & U2) | (-> & U1 & U2)]; [destruct Qr as [Q | Q]|destruct Qq as [Q | Q]]; (exact Q || (exfalso; lia))).
  rewrite OK, (O r q m Lr Lq), Sr, Sq. cbn [negb orb]. destruct (lsgn a && lsgn b); [reflexivity|]. apply f_equal. apply from_ext. intros p Hp. rewrite Yr, Yq by exact Hp. reflexivity.
Qed.
Lemma table_four (op : logic -> logic -> outcome logic) table a b : (forall a b, lvec a -> lvec b -> lw a = lw b -> lmsb a < llsb a -> op a b = IllFormed) -> (forall a b, l_same_size_op (lsize a) b = false -> op a b = IllFormed) ->
  (forall a b n, lopnd a n -> lopnd b n -> op a b = if lsgn a && lsgn b then IllFormed else Ok (from_syms n (fun p => table (sym_at a p) (sym_at b p)))) ->
  lvec a -> lvec b -> (if lsize a =? lsize b then op a b else logic_mixed op a b) = four_table table a b.
Proof.
  intros A B O La Lb. change (lsize a) with (lw a). change (lsize b) with (lw b). destruct (Z.eqb_spec (lw a) (lw b)) as [E | E]; [|apply mixed_four; assumption].
  unfold four_table. cbn zeta. rewrite E, Z.eqb_refl, Z.max_id. destruct ((llsb a <=? lmsb a) && (llsb b <=? lmsb b)) eqn:Q; cbn [negb orb].
  - apply andb_true_iff in Q as [Q1 Q2]. apply Z.leb_le in Q1, Q2. rewrite (O a b (lw b)) by (repeat split; try apply La; try apply Lb; assumption).
    destruct (lsgn a && lsgn b); [reflexivity|]. apply f_equal. apply from_ext. intros p Hp. rewrite (sym_own b p Lb Hp), <- E, (sym_own a p La) by lia. reflexivity.
  - apply refuses_ascending; assumption.
Qed.
Lemma and_four a b : lvec a -> lvec b -> logic_and a b = four_table SpecExact4.lib_and a b.
Proof. apply table_four; [exact and_ascending| |exact and_same_four]. intros x y H. unfold logic_and_same. rewrite H. reflexivity. Qed.
Lemma or_four a b : lvec a -> lvec b -> logic_or a b = four_table SpecExact4.lib_or a b.
Proof. apply table_four; [exact or_ascending| |exact or_same_four]. intros x y H. unfold logic_or_same. rewrite H. reflexivity. Qed.

(** * exclusive or, complement *)
Lemma xor_four a b : lvec a -> lvec b -> logic_xor a b = four_xor a b.
Proof.
  intros La Lb. unfold logic_xor, four_xor. cbn zeta. change (lsize a) with (lw a). change (lsize b) with (lw b). destruct (Z.eqb_spec (lw a) (lw b)) as [E | E]; cbn [negb].
  2: { rewrite <- or_four by assumption. unfold logic_or. change (lsize a) with (lw a). change (lsize b) with (lw b). replace (lw a =? lw b) with false by lia. reflexivity. }
  pose proof La as (Va & Xa & _). pose proof Lb as (Vb & Xb & Mb & Nb & Sb). assert (Sa : bsgn (l_xz a) = false) by apply La. pose proof (lw_xz a La) as Wxa. pose proof (lw_xz b Lb) as Wxb.
  assert (P : 1 <= lw a) by apply bw_pos.
  unfold logic_xor_same, l_same_size_op, same_size_op. change (lsize a) with (lw a). change (bsize (l_val b)) with (lw b). rewrite E, Z.eqb_refl. cbn [andb]. fold (llsb b) (lmsb b).
  destruct (Z.leb_spec (llsb b) (lmsb b)) as [B | B]; cbn [requires negb orb]; [|reflexivity].
  destruct (bitwise_xor_same (l_val a) (l_val b) (lw a) Va Vb eq_refl ltac:(unfold lw in *; lia) B) as (v & -> & Tv & Bv). cbn [bind]. fold (lsgn a) (lsgn b) in Tv.
  destruct (bitwise_or_same (l_xz a) (l_xz b) (lw a) Xa Xb Wxa ltac:(lia) ltac:(rewrite Mb, Nb; exact B)) as (m & H & Tm & Bm). rewrite Sa in Tm. cbn [andb] in Tm.
  assert (G : m = vec_of (lw a) false (Z.lor (stored (l_xz a)) (stored (l_xz b)))).
  { rewrite or_any in H by assumption. unfold any_bitwise, bitwise, combined, small, wider, both_signed, widened in H. cbn zeta in H. rewrite Wxa, Wxb, <- E, Sa, Z.max_id, !Z.eqb_refl in H. cbn [andb orb negb] in H.
    destruct (Z.leb_spec (lw a) 64) as [Q | Q]; cbn [andb] in H; destruct (pairs_up _ _); try discriminate; injection H as <-; [symmetry; apply vec_of_small; lia|reflexivity]. }
  rewrite H. cbn [bind]. destruct (not_bits m (lw a) (typed_opnd _ _ _ P Tm)) as [Tn Bn]. unfold bit_and_assign. destruct (lsgn a && lsgn b) eqn:Q.
  - rewrite compound_rejected by (try apply Tv; apply Tn). reflexivity.
  - destruct (compound_bits _ _ _ _ (lw a) bitwise_and_same P Tv (typed_opnd _ _ _ P Tn)) as (r & -> & Tr & Dr & Br). cbn [bind].
    unfold vec4, object4. rewrite <- ?E. rewrite G at 1. unfold vec_of. do 2 f_equal. pose proof Tr as (Vr & [Mr Nr] & Sr). rewrite (tidy_object r Vr Dr Sr), Mr, Nr. f_equal.
    apply gather_num; [exact P|exact (typed_bw _ _ _ P Tr)|]. intros p Hp. rewrite Br, Bn, Bv, Bm by exact Hp. unfold sym_at.
    destruct (bit_at (l_val a) p), (bit_at (l_xz a) p), (bit_at (l_val b) p), (bit_at (l_xz b) p); reflexivity.
Qed.
Lemma not_four a : lvec a -> logic_not a = Ok (four_not a).
Proof.
  intros L. destruct (vec_facts _ (lv_val a L)) as (_ & _ & W). fold (lw a) in W. pose proof L as (V & X & _). pose proof (lw_xz a L) as XW. assert (P : 1 <= lw a) by lia.
  unfold logic_not, four_not. cbn zeta. change (lsize a) with (lw a). rewrite default_unknown by lia. unfold all_unknown, vec4, object4. cbn [l_val l_xz].
  destruct (bitwise_not _ V) as [TN BN]. fold (lw a) in TN, BN. pose proof TN as (VN & _).
  rewrite assign_same; [|apply (vec_of_vec (lw a)); lia|exact VN|rewrite (typed_bw _ _ _ P TN); symmetry; apply (vec_of_bw (lw a)); lia]. cbn [bind].
  rewrite assign_same; [|apply (vec_of_vec (lw a)); lia|exact X|rewrite XW; symmetry; apply (vec_of_bw (lw a)); lia]. cbn [bind].
  change (rewritten (object (lw a - 1) 0 false 0) (stored (bit_not (l_val a)))) with (vec_of (lw a) false (stored (bit_not (l_val a)))).
  change (rewritten (object (lw a - 1) 0 false (2 ^ lw a - 1)) (stored (l_xz a))) with (vec_of (lw a) false (stored (l_xz a))).
  assert (TV : forall z, typed (vec_of (lw a) false z) (lw a) false) by (intros z; split; [apply vec_of_vec; lia|split; [split; reflexivity|reflexivity]]).
  destruct (not_bits _ (lw a) (typed_opnd _ _ _ P (TV (stored (l_xz a))))) as [Tn Bn].
  destruct (compound_bits _ _ _ _ (lw a) bitwise_and_same P (TV (stored (bit_not (l_val a)))) (typed_opnd _ _ _ P Tn)) as (r & H & Tr & Dr & Br).
  unfold bit_and_assign. rewrite H. cbn [bind]. pose proof Tr as (Vr & [Mr Nr] & Sr). unfold vec_of. do 2 f_equal. rewrite (tidy_object r Vr Dr Sr), Mr, Nr. f_equal.
  apply gather_num; [exact P|exact (typed_bw _ _ _ P Tr)|]. intros p Hp. rewrite Br, Bn by exact Hp.
  assert (AT : forall b, vec b -> bw b = lw a -> bsgn b = false -> bit_at (vec_of (lw a) false (stored b)) p = bit_at b p).
  { intros b Vb Wb Sb. rewrite !at_stored by (try exact Vb; try (apply vec_of_vec; lia); rewrite ?vec_of_bw by lia; lia). f_equal. destruct (Z.leb_spec (lw a) 64) as [C | C].
    - rewrite vec_of_small by lia. unfold vector, stored at 1. cbn [bval]. apply store_in; [lia|]. rewrite <- Sb. apply stored_in; [exact Vb|lia].
    - rewrite stored_vec_of by lia. apply Z.mod_small. rewrite <- Wb. apply stored_range; [exact Vb|lia]. }
  assert (SX : bsgn (l_xz a) = false) by apply L. rewrite !AT by (try assumption; try exact (typed_bw _ _ _ P TN); apply TN). rewrite BN by exact Hp. unfold sym_at.
  destruct (bit_at (l_val a) p), (bit_at (l_xz a) p); reflexivity.
Qed.
