(** Programs that never leave anything outside the declared positions. *)
From Coq Require Import ZArith List Bool Lia Zify ZifyBool.
From Verif Require Import LogicProofs.
From Verif Require Import Cpp BigNum Bit Logic Util More Rest Spec Reach ZBits Words BigNumProofs BigArith BitProofs BitExt BitOps BitMain BitMain2 BitMain3 BitMain4 BitMain5 RestProofs LawProofs MoreProofs ReachProofs ReachProofs2 ReachProofs3 ReachProofs4 ReachProofs5.
Import ListNotations.
Open Scope Z_scope.
Local Ltac Zify.zify_post_hook ::= idtac.

Definition neat (b : bit) : Prop := typed b (bw b) false /\ tidy b.
Lemma neat_typed b n : 1 <= n -> typed b n false -> tidy b -> neat b.
Proof. intros Hn T Y. split; [|exact Y]. rewrite (typed_bw _ _ _ Hn T). exact T. Qed.
Lemma neat_is b n : 1 <= n -> is_vec b (n - 1) 0 false -> tidy b -> neat b.
Proof. intros Hn (A & B & C & D) Y. apply (neat_typed b n Hn); [|exact Y]. split; [exact A|]. split; [split|]; assumption. Qed.
Lemma neat_good op a b r : good op -> neat a -> neat b -> op a b = Ok r -> typed r (Z.max (bw a) (bw b)) false.
Proof. intros G [Ta Ya] [Tb Yb] H. destruct (G _ _ _ (proj1 Ta) (proj1 Tb) H) as (V & M & L & S). split; [exact V|]. split; [split; assumption|]. rewrite S, (proj2 (proj2 Ta)). reflexivity. Qed.
Lemma bw_pos1 b : 1 <= bw b. Proof. unfold bw, width. lia. Qed.
(** a bitwise operator at different widths ends in mask_off *)
Lemma neat_bitwise op a b r : good_same op -> (forall a b n, typed a n false -> typed b n false -> 1 <= n -> tidy a -> tidy b -> forall r, op a b = Ok r -> tidy r) ->
  neat a -> neat b -> (if bsize a =? bsize b then op a b else omap bit_mask_off (bit_mixed op a b)) = Ok r -> neat r.
Proof.
  intros G Y Na Nb H. pose proof (bw_pos1 a). pose proof (bw_pos1 b). pose proof (neat_good _ _ _ _ (good_masked op G) Na Nb H) as T.
  apply (neat_typed r (Z.max (bw a) (bw b))); [lia|exact T|]. rewrite (bsize_bw a), (bsize_bw b) in H. destruct (Z.eqb_spec (bw a) (bw b)) as [E|E].
  - apply (Y a b (bw a)); [apply Na|rewrite E; apply Nb|lia|apply Na|apply Nb|exact H].
  - inv_ok H. injection H as <-. destruct (mixed_good op a b a0 G (proj1 (proj1 Na)) (proj1 (proj1 Nb)) E0) as (V & M & L & S).
    assert (T0 : typed a0 (Z.max (bw a) (bw b)) false) by (split; [exact V|]; split; [split; assumption|]; rewrite S, (proj2 (proj2 (proj1 Na))); reflexivity).
    apply (bit_mask_off_spec a0 (Z.max (bw a) (bw b)) false ltac:(lia) T0). left. reflexivity.
Qed.
Lemma bsame_and : good_same bit_and_same. Proof. apply good_bin. intros n x y z Hn Wx Wy E. injection E as <-. apply and_wfn; assumption. Qed.
Lemma bsame_or : good_same bit_or_same. Proof. apply good_bin. intros n x y z Hn Wx Wy E. injection E as <-. apply or_wfn; assumption. Qed.
Lemma bsame_xor : good_same bit_xor_same. Proof. apply good_bin. intros n x y z Hn Wx Wy E. injection E as <-. apply xor_wfn; assumption. Qed.
Lemma same_of a b n (op : bit -> bit -> outcome bit) full : (forall a b, full a b = if bsize a =? bsize b then op a b else omap bit_mask_off (bit_mixed op a b)) ->
  1 <= n -> typed a n false -> typed b n false -> full a b = op a b.
Proof. intros F Hn Ta Tb. rewrite F, (bsize_bw a), (bsize_bw b), (typed_bw _ _ _ Hn Ta), (typed_bw _ _ _ Hn Tb), Z.eqb_refl. reflexivity. Qed.

Lemma number_tidy n v : 1 <= n < 2 ^ 31 -> 0 <= v < 2 ^ Z.min n 64 -> tidy (bit_of_arith (n - 1) 0 false v).
Proof.
  intros Hn Hv. pose proof (arith_vec _ _ false v (decl_plain n Hn)) as V. assert (R : 0 <= v < 2 ^ n /\ v < 2 ^ 64).
  { pose proof (Z.pow_le_mono_r 2 (Z.min n 64) n ltac:(lia) ltac:(lia)). pose proof (Z.pow_le_mono_r 2 (Z.min n 64) 64 ltac:(lia) ltac:(lia)). lia. }
  destruct (Z.leb_spec n 64) as [H|H].
  - unfold bit_of_arith, native_num. change (vsize (n - 1) 0) with (width (n - 1) 0). rewrite width_plain by lia. destruct (Z.leb_spec n 64); [|lia].
    change (bit_of_native (n - 1) 0 false v) with (nat_bit (n - 1) 0 false v). apply nat_bit_tidy; rewrite width_plain; lia.
  - rewrite big_number by lia. apply big_tidy. rewrite (proj2 (bn_of_native_spec n v ltac:(lia))), u64_id by lia. rewrite width_plain by lia. lia.
Qed.
Lemma neat2_neat b : neat2 b -> neat b.
Proof.
  induction 1 as [n Hn|n Hn|n v Hn Hv|n b Hn M P S|a i x r N IH Hi E|a i j r N IH Hi Hj E|a m r N IH Hm E|a b r N IH N2 IH2 C E|a amt r N IH N2 IH2 C E|f a b r I N IH N2 IH2 E|f a b r I N IH N2 IH2 Wa Wb Z0 E].
  - pose proof (is_zero _ _ false (decl_plain n Hn)) as V. apply (neat_is _ n); [lia|exact V|]. destruct V as (V & A & B & C).
    assert (T : typed (bit_zero (n - 1) 0 false) n false) by (split; [exact V|]; split; [split; assumption|exact C]).
    apply (tidy_u_iff _ n ltac:(lia) T). rewrite stored_zero. pose proof (pow2_pos n ltac:(lia)). lia.
  - pose proof (is_mask _ _ false (decl_plain n Hn)) as V. apply (neat_is _ n); [lia|exact V|]. destruct (decl_plain n Hn) as (A & B & C). apply (LogicProofs.mask_vec _ _ A B C).
  - pose proof (is_arith _ _ false v (decl_plain n Hn)) as V. apply (neat_is _ n); [lia|exact V|]. apply number_tidy; lia.
  - assert (T : typed b n false) by (split; [apply made2_vec; exact M|]; split; assumption). destruct (bit_mask_off_spec b n false Hn T) as (T2 & _ & Y).
    apply (neat_typed _ n Hn T2). apply Y. left. reflexivity.
  - destruct IH as [T Y]. pose proof (bw_pos1 a). destruct (is_set a (bw a - 1) 0 false i x r) as (V & A & B & C); [destruct T as (V & [A B] & C); repeat split; try apply V; assumption|exact E|].
    apply (neat_is r (bw a)); [lia|repeat split; try apply V; assumption|].
    apply (proj1 (proj2 (proj2 (proj2 (proj2 (proj2 (tidy_ops a a (bw a) T T ltac:(lia) Y Y)))))) i x r Hi E).
  - destruct IH as [T Y]. pose proof (bw_pos1 a). pose proof (slice_vec a i j r (proj1 T) E) as (V & A & B & C).
    assert (W : Z.max i j < bw a). { unfold bit_slice_c in E. inv_ok E. rewrite (bsize_bw a) in *. lia. }
    apply (neat_is r (Z.abs (i - j) + 1)); [lia|repeat split; try apply V; try assumption; lia|].
    apply (proj1 (proj2 (proj2 (proj2 (proj2 (proj2 (proj2 (tidy_ops a a (bw a) T T ltac:(lia) Y Y))))))) i j r ltac:(lia) ltac:(lia) E).
  - destruct IH as [T Y]. pose proof (bw_pos1 a). destruct (bit_extend_u_tidy a (bw a) m ltac:(lia) ltac:(lia) T Y) as (r' & E' & T' & _ & Y'). rewrite E in E'. injection E' as <-. apply (neat_typed r m); [lia|exact T'|exact Y'].
  - destruct IH as [T Y], IH2 as [T2 Y2]. pose proof (bw_pos1 a). pose proof (bw_pos1 b).
    assert (W : bw a + bw b < 64). { unfold bit_concat in E. cbv zeta in E. rewrite (bsize_bw a), (bsize_bw b) in E. destruct (Z.ltb_spec (bw a + bw b) 64); [assumption|discriminate]. }
    destruct (concat_num a b (bw a) (bw b)) as (r' & E' & T' & _ & Y'); try assumption; try lia. rewrite E in E'. injection E' as <-. apply (neat_typed r (bw a + bw b)); [lia|exact T'|exact Y'].
  - destruct IH as [T Y], IH2 as [T2 Y2]. pose proof (bw_pos1 a). pose proof (bw_pos1 amt). pose proof (good_shr _ _ _ (proj1 T) (proj1 T2) E) as (V & A & B & S). rewrite (proj2 (proj2 T)) in S.
    apply (neat_is r (bw a)); [lia|repeat split; try apply V; assumption|].
    assert (VN : value amt = num amt) by (unfold value; rewrite (proj2 (proj2 T2)); reflexivity).
    assert (N0 : 0 <= num amt) by (unfold num; apply Z.mod_pos_bound, pow2_pos; lia).
    apply (proj1 (proj2 (proj2 (proj2 (proj2 (tidy_ops a a (bw a) T T ltac:(lia) Y Y))))) amt r (proj1 T2) Y2 ltac:(lia)); [|exact E]. intros H1. split; [|lia].
    (* a native vector is not shifted by a multi-word one *)
    unfold bit_shr in E. vcase a (proj1 T); [|lia]. rewrite Eb in E. vcase amt (proj1 T2); [lia|]. rewrite Eb0 in E. discriminate.
  - cbn [In] in I. destruct I as [<- | [<- | [<- | []]]].
    + apply (neat_bitwise bit_and_same a b r bsame_and); [|exact IH|exact IH2|exact E]. intros x y n Tx Ty Hn Yx Yy z Ez. rewrite <- (same_of x y n _ bit_and ltac:(reflexivity) Hn Tx Ty) in Ez. exact (proj1 (tidy_ops x y n Tx Ty Hn Yx Yy) z Ez).
    + apply (neat_bitwise bit_or_same a b r bsame_or); [|exact IH|exact IH2|exact E]. intros x y n Tx Ty Hn Yx Yy z Ez. rewrite <- (same_of x y n _ bit_or ltac:(reflexivity) Hn Tx Ty) in Ez. exact (proj1 (proj2 (tidy_ops x y n Tx Ty Hn Yx Yy)) z Ez).
    + apply (neat_bitwise bit_xor_same a b r bsame_xor); [|exact IH|exact IH2|exact E]. intros x y n Tx Ty Hn Yx Yy z Ez. rewrite <- (same_of x y n _ bit_xor ltac:(reflexivity) Hn Tx Ty) in Ez. exact (proj1 (proj2 (proj2 (tidy_ops x y n Tx Ty Hn Yx Yy))) z Ez).
  - destruct IH as [T Y], IH2 as [T2 Y2]. pose proof (bw_pos1 a). pose proof (bw_pos1 b).
    destruct (division a b (bw a) (bw b)) as (q & t & Eq & Et & Tq & Tt & Yq & Yt & _); try assumption; try lia. { intros K. lia. }
    cbn [In] in I. destruct I as [<- | [<- | []]].
    + rewrite E in Eq. injection Eq as <-. apply (neat_typed r (Z.max (bw a) (bw b))); [lia|exact Tq|exact Yq].
    + rewrite E in Et. injection Et as <-. apply (neat_typed r (Z.max (bw a) (bw b))); [lia|exact Tt|exact Yt].
Qed.

Lemma neat_eq a b : neat2 a -> neat2 b -> bw a = bw b -> bit_eq a b = Ok (num a =? num b).
Proof.
  intros Na Nb W. destruct (neat2_neat a Na) as [Ta Ya], (neat2_neat b Nb) as [Tb Yb]. assert (Sa := proj2 (proj2 Ta)). assert (Sb := proj2 (proj2 Tb)).
  assert (E : bit_eq a b = Ok (value a =? value b)).
  { apply equality; [apply Ta|apply Tb|]. unfold eq_ok. rewrite Sa, Sb, W. split; [reflexivity|]. split; [split; [exact Ya|congruence]|]. split; [split; [exact Yb|congruence]|].
    destruct (Z.leb_spec (bw b) 64); [left; lia|]. right. right. repeat split; try lia. }
  rewrite E. unfold value. rewrite Sa, Sb. reflexivity.
Qed.
Lemma neat_same a b : neat2 a -> neat2 b -> bw a = bw b -> (forall p, 0 <= p < bw a -> bit_at a p = bit_at b p) -> a = b.
Proof.
  intros Na Nb W H. destruct (neat2_neat a Na) as [Ta Ya], (neat2_neat b Nb) as [Tb Yb]. pose proof (bw_pos1 a). apply (bit_ext a b (bw a)); try assumption; try lia. rewrite W. exact Tb.
Qed.
Lemma neat2_made2 b : neat2 b -> made2 b.
Proof. intros N. apply vec_made2. apply (neat2_neat b N). Qed.
Lemma neat_all b : neat2 b -> typed b (bw b) false /\ tidy b. Proof. apply neat2_neat. Qed.
Lemma made4_native l : lw l <= 64 -> (made4 l <-> lvec l).
Proof. intros H. split; [apply made4_lvec|]. intros L. apply lvec_made4_nat; assumption. Qed.
Lemma made4_big l : 65 <= lw l -> tidy (l_xz l) -> (made4 l <-> lvec l).
Proof. intros H Y. split; [apply made4_lvec|]. intros L. apply lvec_made4_big; assumption. Qed.
Lemma dirty_equal : exists a b, made2 a /\ made2 b /\ typed a 4 false /\ typed b 4 false /\ num a = num b /\ bit_eq a b = Ok false.
Proof.
  exists (mkBit 3 0 false (HN 20)), (mkBit 3 0 false (HN 4)). split; [apply vec_made2; conc|]. split; [apply vec_made2; conc|]. conc.
Qed.
