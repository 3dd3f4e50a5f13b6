(** Lemmas about the 4-state bitwise operators and reductions. *)
From Coq Require Import ZArith List Bool Lia.
From Verif Require Import Cpp BigNum Bit Logic Spec ZBits Words BigNumProofs BigArith BitProofs BitSlice BitExt BitOps
  BitShift BitCmp BitArith BitMain BitMain2 BitMain3 BitMain4 BitMain5 LogicProofs.
Import ListNotations.
Open Scope Z_scope.

(** a same-size operand: descending range, width n *)
Definition opnd (b : bit) (n : Z) : Prop := vec b /\ bw b = n /\ blsb b <= bmsb b.
Definition lopnd (l : logic) (n : Z) : Prop := lvec l /\ lw l = n /\ llsb l <= lmsb l.
Lemma lopnd_val l n : lopnd l n -> opnd (l_val l) n.
Proof. intros ((V & _) & W & B). repeat split; try apply V; assumption. Qed.
Lemma lopnd_xz l n : lopnd l n -> opnd (l_xz l) n.
Proof.
  intros (V & W & B). pose proof (lw_lvec _ V) as E. destruct (lvec_xz_range _ V) as [A C]. destruct V as (_ & V & _).
  repeat split; try apply V; [congruence | now rewrite A, C].
Qed.
Lemma typed_opnd b n s : 1 <= n -> typed b n s -> opnd b n.
Proof. intros Hn H. pose proof H as (V & _). split; [exact V|]. split; [exact (typed_bw _ _ _ Hn H) | exact (plain_be _ _ _ H Hn)]. Qed.
Lemma ltyped_lopnd l n s : 1 <= n -> ltyped l n s -> lopnd l n.
Proof.
  intros Hn H. split; [exact (ltyped_lvec _ _ _ H)|]. split; [exact (ltyped_lw _ _ _ Hn H)|]. destruct H as [H _]. exact (plain_be _ _ _ H Hn).
Qed.
Lemma lopnd_xz_s l n : lopnd l n -> bsgn (l_xz l) = false. Proof. intros ((_ & _ & _ & _ & S) & _). exact S. Qed.

Definition spec_bits (op : bit -> bit -> outcome bit) (bop : bool -> bool -> bool) : Prop :=
  forall a b n, vec a -> vec b -> bw a = n -> bw b = n -> blsb b <= bmsb b ->
    exists r, op a b = Ok r /\ typed r n (bsgn a && bsgn b) /\
      forall p, 0 <= p < n -> bit_at r p = bop (bit_at a p) (bit_at b p).
Lemma op_tot op bop a b n sa sb : spec_bits op bop -> opnd a n -> opnd b n -> bsgn a = sa -> bsgn b = sb ->
  exists r, op a b = Ok r /\ typed r n (sa && sb) /\ forall p, 0 <= p < n -> bit_at r p = bop (bit_at a p) (bit_at b p).
Proof. intros S (Va & Wa & _) (Vb & Wb & Bb) <- <-. exact (S a b n Va Vb Wa Wb Bb). Qed.

Lemma compound_bits op bop a b n : spec_bits op bop -> 1 <= n -> typed a n false -> opnd b n ->
  exists r, bit_compound op a b = Ok r /\ typed r n false /\ tidy r /\
    forall p, 0 <= p < n -> bit_at r p = bop (bit_at a p) (bit_at b p).
Proof.
  intros S Hn Ta (Vb & Wb & Bb). pose proof Ta as (Va & [M L] & Sg). pose proof (typed_bw _ _ _ Hn Ta) as Wa.
  destruct (S a b n Va Vb Wa Wb Bb) as (r0 & E0 & T0 & B0). rewrite Sg in T0. cbn [andb] in T0.
  destruct (assign_typed a r0 n false false Hn Ta T0) as (a' & Ea & Ta' & Na).
  destruct (bit_mask_off_spec a' n false Hn Ta') as (Tm & Nm & Tt).
  exists (bit_mask_off a'). unfold bit_compound, compound_ok. rewrite (typed_bsize _ _ _ Hn Ta), M, L, Sg, !Z.eqb_refl. cbn [andb Bool.eqb requires].
  rewrite E0. cbn [bind]. rewrite Ea. cbn [bind]. split; [reflexivity|]. split; [exact Tm|]. split; [auto|].
  intros p Hp. rewrite <- B0 by assumption. unfold bit_at. now rewrite Nm, Na.
Qed.

Lemma not_bits a n : opnd a n -> typed (bit_not a) n false /\ forall p, 0 <= p < n -> bit_at (bit_not a) p = negb (bit_at a p).
Proof. intros (V & <- & _). exact (bitwise_not a V). Qed.
Lemma opnd_pos a n : opnd a n -> 1 <= n. Proof. intros (_ & <- & _). apply bw_pos. Qed.

Lemma mask_bits a b n : lopnd a n -> lopnd b n ->
  exists r, logic_mask a b = Ok r /\ typed r n false /\
    forall p, 0 <= p < n -> bit_at r p =
      xorb (bit_at (l_xz a) p) (bit_at (l_xz b) p) && negb (bit_at (l_xz a) p) && bit_at (l_val a) p ||
      xorb (bit_at (l_xz b) p) (bit_at (l_xz a) p) && negb (bit_at (l_xz b) p) && negb (bit_at (l_val a) p).
Proof.
  intros La Lb. pose proof (lopnd_val _ _ La) as Va. pose proof (lopnd_xz _ _ La) as Xa. pose proof (lopnd_xz _ _ Lb) as Xb.
  pose proof (opnd_pos _ _ Va) as Hn. pose proof (lopnd_xz_s _ _ La) as Sa. pose proof (lopnd_xz_s _ _ Lb) as Sb.
  unfold logic_mask.
  destruct (op_tot _ _ _ _ n false false bitwise_xor_same Xa Xb Sa Sb) as (x & -> & Tx & Bx). cbn [bind].
  destruct (not_bits _ _ Xa) as [Tna Bna]. pose proof (typed_opnd _ _ _ Hn Tna) as Ona.
  destruct (op_tot _ _ _ _ n false false bitwise_and_same (typed_opnd _ _ _ Hn Tx) Ona (typed_sgn _ _ _ Tx) (typed_sgn _ _ _ Tna)) as (x1 & -> & Tx1 & Bx1). cbn [bind].
  destruct (op_tot _ _ _ _ n false _ bitwise_and_same (typed_opnd _ _ _ Hn Tx1) Va (typed_sgn _ _ _ Tx1) eq_refl) as (x2 & -> & Tx2 & Bx2). cbn [bind].
  destruct (op_tot _ _ _ _ n false false bitwise_xor_same Xb Xa Sb Sa) as (y & -> & Ty & By). cbn [bind].
  destruct (not_bits _ _ Xb) as [Tnb Bnb]. pose proof (typed_opnd _ _ _ Hn Tnb) as Onb.
  destruct (op_tot _ _ _ _ n false false bitwise_and_same (typed_opnd _ _ _ Hn Ty) Onb (typed_sgn _ _ _ Ty) (typed_sgn _ _ _ Tnb)) as (y1 & -> & Ty1 & By1). cbn [bind].
  destruct (not_bits _ _ Va) as [Tva Bva]. pose proof (typed_opnd _ _ _ Hn Tva) as Ova.
  destruct (op_tot _ _ _ _ n false false bitwise_and_same (typed_opnd _ _ _ Hn Ty1) Ova (typed_sgn _ _ _ Ty1) (typed_sgn _ _ _ Tva)) as (y2 & -> & Ty2 & By2). cbn [bind].
  destruct (op_tot _ _ _ _ n false false bitwise_or_same (typed_opnd _ _ _ Hn Tx2) (typed_opnd _ _ _ Hn Ty2) (typed_sgn _ _ _ Tx2) (typed_sgn _ _ _ Ty2)) as (r & -> & Tr & Br).
  exists r. split; [reflexivity|]. split; [exact Tr|]. intros p Hp.
  rewrite Br, Bx2, By2, Bx1, By1, Bx, By, Bna, Bnb, Bva by assumption. reflexivity.
Qed.

(** what the code's [&] and [|] compute position by position *)
Definition and_code (a b : sym) : sym :=
  match a, b with SX, S0 => SX | SZ, S1 => S1 | SZ, SZ => SZ | _, _ => and4 a b end.
Definition or_code (a b : sym) : sym :=
  match a, b with SX, S0 => S1 | SZ, S1 => SX | _, _ => or4 a b end.

Lemma lsame_op l n : lopnd l n -> l_same_size_op n l = true.
Proof. intros (V & W & B). unfold l_same_size_op, same_size_op. change (bsize (l_val l)) with (lw l). rewrite W, Z.eqb_refl. now apply Z.leb_le. Qed.
Lemma lopnd_lsize l n : lopnd l n -> lsize l = n. Proof. intros (_ & W & _). exact W. Qed.

Lemma and_same_spec a b n : lopnd a n -> lopnd b n -> lsgn a && lsgn b = false ->
  exists r, logic_and_same a b = Ok r /\ ltyped r n false /\ ltidy r /\
    forall p, 0 <= p < n -> sym_at r p = and_code (sym_at a p) (sym_at b p).
Proof.
  intros La Lb S. pose proof (lopnd_val _ _ La) as Va. pose proof (lopnd_xz _ _ La) as Xa. pose proof (lopnd_val _ _ Lb) as Vb. pose proof (lopnd_xz _ _ Lb) as Xb.
  pose proof (opnd_pos _ _ Va) as Hn. pose proof (lopnd_xz_s _ _ La) as Sa. pose proof (lopnd_xz_s _ _ Lb) as Sb.
  unfold logic_and_same. rewrite (lopnd_lsize _ _ La), (lsame_op _ _ Lb). cbn [requires].
  destruct (op_tot _ _ _ _ n _ _ bitwise_and_same Va Vb eq_refl eq_refl) as (v & -> & Tv & Bv). cbn [bind].
  change (bsgn (l_val a) && bsgn (l_val b)) with (lsgn a && lsgn b) in Tv. rewrite S in Tv.
  destruct (op_tot _ _ _ _ n false false bitwise_and_same Xa Xb Sa Sb) as (m & -> & Tm & Bm). cbn [bind].
  destruct (mask_bits _ _ _ La Lb) as (k & -> & Tk & Bk). cbn [bind].
  destruct (not_bits _ _ (typed_opnd _ _ _ Hn Tk)) as [Tnk Bnk].
  destruct (compound_bits _ _ _ _ n bitwise_and_same Hn Tv (typed_opnd _ _ _ Hn Tnk)) as (v' & Ev & Tv' & Dv & Bv').
  destruct (compound_bits _ _ _ _ n bitwise_or_same Hn Tm (typed_opnd _ _ _ Hn Tk)) as (m' & Em & Tm' & Dm & Bm').
  unfold bit_and_assign, bit_or_assign. rewrite Ev. cbn [bind]. rewrite Em. cbn [bind].
  eexists. split; [reflexivity|]. split; [split; assumption|]. split; [split; assumption|].
  intros p Hp. unfold sym_at. cbn [l_val l_xz]. rewrite Bv', Bm', Bnk, Bk, Bv, Bm by assumption.
  destruct (bit_at (l_val a) p), (bit_at (l_xz a) p), (bit_at (l_val b) p), (bit_at (l_xz b) p); reflexivity.
Qed.
Lemma or_same_spec a b n : lopnd a n -> lopnd b n -> lsgn a && lsgn b = false ->
  exists r, logic_or_same a b = Ok r /\ ltyped r n false /\ ltidy r /\
    forall p, 0 <= p < n -> sym_at r p = or_code (sym_at a p) (sym_at b p).
Proof.
  intros La Lb S. pose proof (lopnd_val _ _ La) as Va. pose proof (lopnd_xz _ _ La) as Xa. pose proof (lopnd_val _ _ Lb) as Vb. pose proof (lopnd_xz _ _ Lb) as Xb.
  pose proof (opnd_pos _ _ Va) as Hn. pose proof (lopnd_xz_s _ _ La) as Sa. pose proof (lopnd_xz_s _ _ Lb) as Sb.
  unfold logic_or_same. rewrite (lopnd_lsize _ _ La), (lsame_op _ _ Lb). cbn [requires].
  destruct (op_tot _ _ _ _ n _ _ bitwise_or_same Va Vb eq_refl eq_refl) as (v & -> & Tv & Bv). cbn [bind].
  change (bsgn (l_val a) && bsgn (l_val b)) with (lsgn a && lsgn b) in Tv. rewrite S in Tv.
  destruct (op_tot _ _ _ _ n false false bitwise_or_same Xa Xb Sa Sb) as (m & -> & Tm & Bm). cbn [bind].
  destruct (not_bits _ _ (typed_opnd _ _ _ Hn Tm)) as [Tnm Bnm].
  destruct (compound_bits _ _ _ _ n bitwise_and_same Hn Tv (typed_opnd _ _ _ Hn Tnm)) as (v1 & Ev & Tv1 & Dv & Bv1).
  unfold bit_and_assign, bit_or_assign. rewrite Ev. cbn [bind].
  destruct (mask_bits _ _ _ La Lb) as (k & -> & Tk & Bk). cbn [bind].
  destruct (not_bits _ _ (typed_opnd _ _ _ Hn Tk)) as [Tnk Bnk].
  destruct (compound_bits _ _ _ _ n bitwise_or_same Hn Tv1 (typed_opnd _ _ _ Hn Tk)) as (v2 & Ev2 & Tv2 & Dv2 & Bv2).
  destruct (compound_bits _ _ _ _ n bitwise_and_same Hn Tm (typed_opnd _ _ _ Hn Tnk)) as (m2 & Em2 & Tm2 & Dm2 & Bm2).
  rewrite Ev2. cbn [bind]. rewrite Em2. cbn [bind].
  eexists. split; [reflexivity|]. split; [split; assumption|]. split; [split; assumption|].
  intros p Hp. unfold sym_at. cbn [l_val l_xz]. rewrite Bv2, Bm2, Bv1, Bnk, Bk, Bnm, Bv, Bm by assumption.
  destruct (bit_at (l_val a) p), (bit_at (l_xz a) p), (bit_at (l_val b) p), (bit_at (l_xz b) p); reflexivity.
Qed.
Lemma or_tidy a b n : opnd a n -> opnd b n -> bsgn a = false -> bsgn b = false -> tidy a -> tidy b ->
  forall r, bit_or a b = Ok r -> tidy r.
Proof.
  intros (Va & Wa & _) (Vb & Wb & Bb) Sa Sb Ta Tb r E. destruct (proj1 bit_or_spec2 a b n Va Vb Wa Wb Bb) as (r' & E' & _ & _ & T).
  assert (r' = r) as <- by congruence. apply T; congruence.
Qed.
Lemma xor_same_spec a b n : lopnd a n -> lopnd b n -> lsgn a && lsgn b = false ->
  exists r, logic_xor_same a b = Ok r /\ ltyped r n false /\ (tidy (l_xz a) -> tidy (l_xz b) -> ltidy r) /\
    forall p, 0 <= p < n -> sym_at r p = xor4 (sym_at a p) (sym_at b p).
Proof.
  intros La Lb S. pose proof (lopnd_val _ _ La) as Va. pose proof (lopnd_xz _ _ La) as Xa. pose proof (lopnd_val _ _ Lb) as Vb. pose proof (lopnd_xz _ _ Lb) as Xb.
  pose proof (opnd_pos _ _ Va) as Hn. pose proof (lopnd_xz_s _ _ La) as Sa. pose proof (lopnd_xz_s _ _ Lb) as Sb.
  unfold logic_xor_same. rewrite (lopnd_lsize _ _ La), (lsame_op _ _ Lb). cbn [requires].
  destruct (op_tot _ _ _ _ n _ _ bitwise_xor_same Va Vb eq_refl eq_refl) as (v & -> & Tv & Bv). cbn [bind].
  change (bsgn (l_val a) && bsgn (l_val b)) with (lsgn a && lsgn b) in Tv. rewrite S in Tv.
  destruct (op_tot _ _ _ _ n false false bitwise_or_same Xa Xb Sa Sb) as (m & Em & Tm & Bm). pose proof (or_tidy _ _ _ Xa Xb Sa Sb) as Td. rewrite Em. cbn [bind].
  destruct (not_bits _ _ (typed_opnd _ _ _ Hn Tm)) as [Tnm Bnm].
  destruct (compound_bits _ _ _ _ n bitwise_and_same Hn Tv (typed_opnd _ _ _ Hn Tnm)) as (v1 & Ev & Tv1 & Dv & Bv1).
  unfold bit_and_assign. rewrite Ev. cbn [bind].
  eexists. split; [reflexivity|]. split; [split; assumption|]. split. { intros A B. split; [assumption|]. cbn [l_xz]. auto. }
  intros p Hp. unfold sym_at. cbn [l_val l_xz]. rewrite Bv1, Bnm, Bv, Bm by assumption.
  destruct (bit_at (l_val a) p), (bit_at (l_xz a) p), (bit_at (l_val b) p), (bit_at (l_xz b) p); reflexivity.
Qed.

(** both signed: does not compile *)
Lemma compound_rejected op a b : bsgn a = true -> bsgn b = false -> bit_compound op a b = IllFormed.
Proof. intros Sa Sb. unfold bit_compound, compound_ok. rewrite Sa, Sb. cbn [andb Bool.eqb]. now rewrite andb_false_r. Qed.
Lemma signed_rejected a b n : lopnd a n -> lopnd b n -> lsgn a = true -> lsgn b = true ->
  logic_and_same a b = IllFormed /\ logic_or_same a b = IllFormed /\ logic_xor_same a b = IllFormed.
Proof.
  intros La Lb S1 S2. pose proof (lopnd_val _ _ La) as Va. pose proof (lopnd_xz _ _ La) as Xa. pose proof (lopnd_val _ _ Lb) as Vb. pose proof (lopnd_xz _ _ Lb) as Xb.
  pose proof (opnd_pos _ _ Va) as Hn. pose proof (lopnd_xz_s _ _ La) as Sa. pose proof (lopnd_xz_s _ _ Lb) as Sb.
  unfold logic_and_same, logic_or_same, logic_xor_same. rewrite (lopnd_lsize _ _ La), (lsame_op _ _ Lb). cbn [requires].
  destruct (op_tot _ _ _ _ n _ _ bitwise_and_same Va Vb eq_refl eq_refl) as (v & -> & Tv & _).
  destruct (op_tot _ _ _ _ n _ _ bitwise_or_same Va Vb eq_refl eq_refl) as (v2 & -> & Tv2 & _).
  destruct (op_tot _ _ _ _ n _ _ bitwise_xor_same Va Vb eq_refl eq_refl) as (v3 & -> & Tv3 & _). 
  change (bsgn (l_val a) && bsgn (l_val b)) with (lsgn a && lsgn b) in *. rewrite S1, S2 in *. cbn [andb] in *.
  destruct (op_tot _ _ _ _ n false false bitwise_and_same Xa Xb Sa Sb) as (m & -> & Tm & _).
  destruct (op_tot _ _ _ _ n false false bitwise_or_same Xa Xb Sa Sb) as (m2 & -> & Tm2 & _). cbn [bind].
  destruct (mask_bits _ _ _ La Lb) as (k & -> & Tk & _). cbn [bind]. unfold bit_and_assign.
  rewrite (compound_rejected _ v), (compound_rejected _ v2), (compound_rejected _ v3); auto; try reflexivity; eapply typed_sgn; eassumption.
Qed.

(** * different widths *)
Lemma extend_at x n m : 1 <= n <= m -> m < 2 ^ 31 -> typed x n false -> tidy x ->
  exists r, bit_extend x m = Ok r /\ typed r m false /\ tidy r /\ forall p, bit_at r p = bit_at x p.
Proof.
  intros H1 H2 T D. destruct (bit_extend_u_tidy x n m H1 H2 T D) as (r & E & Tr & N & Dr). exists r. split; [exact E|]. split; [exact Tr|]. split; [exact Dr|].
  intros p. unfold bit_at. now rewrite N.
Qed.
(** symbol of a position under zero extension *)
Definition zsym (l : logic) (n p : Z) : sym := if p <? n then sym_at l p else S0.
Lemma logic_extend_u l n m : 1 <= n <= m -> m < 2 ^ 31 -> ltyped l n false -> ltidy l ->
  exists r, logic_extend l m = Ok r /\ ltyped r m false /\ ltidy r /\ forall p, 0 <= p -> sym_at r p = zsym l n p.
Proof.
  intros H1 H2 T [D1 D2]. pose proof T as [Tv Tx]. unfold logic_extend. rewrite (ltyped_lsize _ _ _ (proj1 H1) T).
  destruct (Z.leb_spec n m); [|lia]. cbn [requires].
  destruct (extend_at _ n m H1 H2 Tv D1) as (v & -> & Tv' & Dv & Bv). destruct (extend_at _ n m H1 H2 Tx D2) as (x & -> & Tx' & Dx & Bx). cbn [bind].
  eexists. split; [reflexivity|]. split; [split; assumption|]. split; [split; assumption|]. intros p Hp. unfold zsym, sym_at. cbn [l_val l_xz].
  rewrite Bv, Bx. destruct (Z.ltb_spec p n) as [L|L]; [reflexivity|].
  rewrite !bit_at_high; [reflexivity| |]; [rewrite (typed_bw _ _ _ (proj1 H1) Tx) | rewrite (typed_bw _ _ _ (proj1 H1) Tv)]; assumption.
Qed.
Lemma logic_mixed_u op sop a b na nb : 1 <= na -> 1 <= nb -> ltyped a na false -> ltyped b nb false -> ltidy a -> ltidy b ->
  (forall a b n, lopnd a n -> lopnd b n -> lsgn a && lsgn b = false ->
    exists r, op a b = Ok r /\ ltyped r n false /\ (tidy (l_xz a) -> tidy (l_xz b) -> ltidy r) /\ forall p, 0 <= p < n -> sym_at r p = sop (sym_at a p) (sym_at b p)) ->
  exists r, logic_mixed op a b = Ok r /\ ltyped r (Z.max na nb) false /\ ltidy r /\
    forall p, 0 <= p < Z.max na nb -> sym_at r p = sop (zsym a na p) (zsym b nb p).
Proof.
  intros Ha Hb Ta Tb Da Db H. unfold logic_mixed. rewrite (ltyped_lsize _ _ _ Ha Ta), (ltyped_lsize _ _ _ Hb Tb).
  assert (M : Z.max na nb < 2 ^ 31) by (pose proof (typed_lt _ _ _ Ha (proj1 Ta)); pose proof (typed_lt _ _ _ Hb (proj1 Tb)); lia).
  destruct (logic_extend_u a na (Z.max na nb)) as (a' & -> & Ta' & Da' & Sa'); auto; [lia|].
  destruct (logic_extend_u b nb (Z.max na nb)) as (b' & -> & Tb' & Db' & Sb'); auto; [lia|]. cbn [bind].
  destruct (H a' b' (Z.max na nb)) as (r & E & Tr & Dr & Sr).
  { apply (ltyped_lopnd _ _ false); [lia|assumption]. } { apply (ltyped_lopnd _ _ false); [lia|assumption]. } { rewrite (ltyped_sgn _ _ _ Ta'); reflexivity. }
  exists r. split; [exact E|]. split; [exact Tr|]. split; [apply Dr; [apply Da'|apply Db']|]. intros p Hp. rewrite Sr by assumption. now rewrite Sa', Sb' by lia.
Qed.

(** * negation *)
Lemma logic_not_spec a n : lvec a -> lw a = n -> n < 2 ^ 31 ->
  exists r, logic_not a = Ok r /\ ltyped r n false /\ (tidy (l_xz a) -> ltidy r) /\ forall p, 0 <= p < n -> sym_at r p = not4 (sym_at a p).
Proof.
  intros V W M. assert (Hn : 1 <= n) by (rewrite <- W; apply bw_pos). unfold logic_not. change (lsize a) with (lw a). rewrite W.
  destruct (default_typed n false ltac:(lia)) as ([Tv Tx] & _).
  pose proof (lw_lvec _ V) as Wx. destruct V as (Va & Vx & _ & _ & Sx).
  destruct (bitwise_not _ Va) as [Tn Bn]. fold (lw a) in Tn, Bn. rewrite W in Tn, Bn.
  destruct (assign_typed _ _ n false false Hn Tv Tn) as (v & -> & Tv' & Nv). cbn [bind].
  assert (Ax : exists r, bit_assign (l_xz (logic_default (n - 1) 0 false)) (l_xz a) = Ok r /\ typed r n false /\ num r = num (l_xz a) /\ (tidy (l_xz a) -> tidy r)).
  { unfold bit_assign. rewrite (typed_bsize _ _ _ Hn Tx). pose proof Tx as (_ & [Mx Lx] & Sgx). rewrite Mx, Lx, Sgx. unfold holder_assign, native_num.
    destruct (vec_cases_n (l_xz a) n Vx ltac:(congruence)) as [(z & Eb & R & I & St & Nu)|(ws & Eb & R & I & St & Nu)]; rewrite Eb, ?Sx in *.
    - destruct (Z.leb_spec n 64); [|lia]. cbn [bind]. eexists. split; [reflexivity|]. rewrite nat_bit_eq by lia. split; [apply typed_nat; lia|].
      rewrite nat_bit_id by (lia || assumption). split; [now rewrite num_plain_nat by lia|]. unfold tidy. rewrite Eb, Sx. cbn [bval bsgn andb].
      unfold bw at 2. cbn [bmsb blsb]. rewrite width_plain by lia. now rewrite Wx, W.
    - destruct (Z.leb_spec n 64); [lia|]. change (bsize (l_xz a)) with (bw (l_xz a)). rewrite Wx, W, Z.eqb_refl. cbn [bind]. eexists. split; [reflexivity|].
      split; [apply typed_big; assumption|]. split; [now rewrite num_plain_big by lia|]. unfold tidy. rewrite Eb. cbn [bval]. unfold bw at 2. cbn [bmsb blsb]. rewrite width_plain by lia. now rewrite Wx, W. }
  destruct Ax as (m & -> & Tm & Nm & Dm). cbn [bind].
  destruct (not_bits _ _ (typed_opnd _ _ _ Hn Tm)) as [Tnm Bnm].
  destruct (compound_bits _ _ _ _ n bitwise_and_same Hn Tv' (typed_opnd _ _ _ Hn Tnm)) as (v1 & Ev & Tv1 & Dv & Bv1).
  unfold bit_and_assign. rewrite Ev. cbn [bind]. eexists. split; [reflexivity|]. split; [split; assumption|]. split. { intros D. split; [assumption|]. cbn [l_xz]. auto. }
  intros p Hp. unfold sym_at. cbn [l_val l_xz]. rewrite Bv1, Bnm by assumption.
  assert (bit_at v p = negb (bit_at (l_val a) p)) as -> by (rewrite <- Bn by assumption; unfold bit_at; now rewrite Nv).
  assert (bit_at m p = bit_at (l_xz a) p) as -> by (unfold bit_at; now rewrite Nm).
  destruct (bit_at (l_val a) p), (bit_at (l_xz a) p); reflexivity.
Qed.
