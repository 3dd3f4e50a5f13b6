(** Every 4-state vector a program can make is well formed. *)
From Coq Require Import ZArith List Bool Lia Zify ZifyBool.
From Verif Require Import Cpp BigNum Bit Logic Util More Rest Spec Reach ZBits Words BigNumProofs BigArith BitProofs BitExt ReachProofs ReachProofs2.
Import ListNotations.
Open Scope Z_scope.
Local Ltac Zify.zify_post_hook ::= idtac.

(** the four facts about a vector with given bounds and signedness *)
Definition is_vec (b : bit) (m l : Z) (s : bool) : Prop := vec b /\ bmsb b = m /\ blsb b = l /\ bsgn b = s.
Lemma lvec_mk v x m l s : is_vec v m l s -> is_vec x m l false -> lvec (mkLogic v x).
Proof. intros (A & B & C & D) (E & F & G & H). repeat split; cbn [l_val l_xz]; try congruence; try apply A; apply E. Qed.
Lemma lvec_is l : lvec l -> is_vec (l_val l) (lmsb l) (llsb l) (lsgn l) /\ is_vec (l_xz l) (lmsb l) (llsb l) false.
Proof. intros (A & B & C & D & E). repeat split; try apply A; try apply B; assumption. Qed.
Lemma is_vec_bw b m l s : is_vec b m l s -> bw b = width m l.
Proof. intros (_ & A & B & _). unfold bw. congruence. Qed.
Lemma lvec_bw l : lvec l -> bw (l_xz l) = bw (l_val l).
Proof. intros (A & B & C & D & E). unfold bw. congruence. Qed.
Lemma lw_lsize l : lsize l = bw (l_val l). Proof. reflexivity. Qed.

Lemma is_zero m l s : declarable m l -> is_vec (bit_zero m l s) m l s.
Proof. intros D. repeat split; apply zero_vec2, D. Qed.
Lemma is_mask m l s : declarable m l -> is_vec (bit_mask m l s) m l s.
Proof. intros D. repeat split; apply mask_vec, D. Qed.
Lemma is_arith m l s v : declarable m l -> is_vec (bit_of_arith m l s v) m l s.
Proof. intros D. pose proof (arith_vec m l s v D). split; [assumption|]. unfold bit_of_arith. destruct (native_num _); auto. Qed.
Lemma default_lvec m l s : declarable m l -> lvec (logic_default m l s).
Proof. intros D. apply (lvec_mk _ _ m l s); [apply is_zero, D|apply is_mask, D]. Qed.
Lemma number_lvec m l s v : declarable m l -> lvec (logic_of_arith m l s v).
Proof. intros D. apply (lvec_mk _ _ m l s); [apply is_arith, D|apply is_zero, D]. Qed.
Lemma decl_l l : lvec l -> declarable (lmsb l) (llsb l).
Proof. intros (A & _). apply decl_of. exact A. Qed.
Lemma decl_n l : lvec l -> declarable (lsize l - 1) 0.
Proof. intros (A & _). apply decl_plain. apply vec_facts. exact A. Qed.

Lemma is_set b m l s i x r : is_vec b m l s -> bit_set b i x = Ok r -> is_vec r m l s.
Proof. intros (A & B & C & D) H. destruct (set_keeps _ _ _ _ H) as (E & F & G). split; [apply (set_vec _ _ _ _ A H)|]. repeat split; congruence. Qed.
Lemma is_assign d m l s b r : is_vec d m l s -> vec b -> bit_assign d b = Ok r -> is_vec r m l s.
Proof. intros (A & B & C & D) V H. destruct (assign_keeps _ _ _ H) as (E & F & G). split; [apply (assign_vec _ _ _ A V H)|]. repeat split; congruence. Qed.
Lemma is_convert m l s b r : declarable m l -> vec b -> bit_convert m l s b = Ok r -> is_vec r m l s.
Proof. intros D V H. split; [apply (convert_vec _ _ _ _ _ D V H)|]. apply (convert_keeps _ _ _ _ _ H). Qed.
Lemma is_assign_arith d m l s v r : is_vec d m l s -> bit_assign_arith d v = Ok r -> is_vec r m l s.
Proof.
  intros (A & B & C & D) H. split; [apply (assign_arith_vec _ _ _ A H)|]. unfold bit_assign_arith in H. destruct (bval d); [|discriminate]. injection H as <-. auto.
Qed.
Lemma of_bit_lvec m l s b r : declarable m l -> vec b -> logic_of_bit m l s b = Ok r -> lvec r.
Proof.
  intros D V H. unfold logic_of_bit in H. inv_ok H. injection H as <-. apply (lvec_mk _ _ m l s); [apply (is_convert _ _ _ _ _ D V E0)|apply is_zero, D].
Qed.
Lemma logic_text_lvec m l s t r : declarable m l -> logic_of_str m l s t = Ok r -> lvec r.
Proof.
  intros D H. pose proof D as (A & B & C). assert (1 <= width m l) by (unfold width; lia). unfold logic_of_str, native_num in H. change (vsize m l) with (width m l) in H.
  destruct (Z.leb_spec (width m l) 64); inv_ok H; injection H as <-; apply (lvec_mk _ _ m l s); (split; [|auto]).
  - apply vec_conv; try assumption. reflexivity.
  - apply vec_conv; try assumption. reflexivity.
  - apply big_vec; try assumption; [lia|]. apply (parse_big_wfn parse_raw_ t); [lia|apply parse_small|exact E].
  - apply big_vec; try assumption; [lia|]. apply (parse_big_wfn parse_xz_raw_ t); [lia|apply parse_xz_small|exact E0].
Qed.
Ltac lparts L := let V := fresh "V" in let X := fresh "X" in destruct (lvec_is _ L) as [V X].
Lemma assign_lvec d a r : lvec d -> lvec a -> logic_assign d a = Ok r -> lvec r.
Proof.
  intros L K H. lparts L. unfold logic_assign in H. inv_ok H. injection H as <-. apply (lvec_mk _ _ _ _ _ (is_assign _ _ _ _ _ _ V (proj1 K) E) (is_assign _ _ _ _ _ _ X (proj1 (proj2 K)) E0)).
Qed.
Lemma assign_arith_lvec d v r : lvec d -> logic_assign_arith d v = Ok r -> lvec r.
Proof.
  intros L H. lparts L. unfold logic_assign_arith in H. inv_ok H. injection H as <-. apply (lvec_mk _ _ _ _ _ (is_assign_arith _ _ _ _ _ _ V E) (is_assign_arith _ _ _ _ _ _ X E0)).
Qed.
Lemma convert_lvec m l s a r : declarable m l -> lvec a -> logic_convert m l s a = Ok r -> lvec r.
Proof.
  intros D L H. unfold logic_convert in H. destruct (_ && _); [injection H as <-; exact L|]. destruct (lsgn a); [|discriminate].
  apply (assign_lvec _ _ _ (default_lvec m l s D) L H).
Qed.
Lemma set_lvec a i x r : lvec a -> logic_set a i x = Ok r -> lvec r.
Proof. intros L H. lparts L. unfold logic_set in H. inv_ok H. injection H as <-. apply (lvec_mk _ _ _ _ _ (is_set _ _ _ _ _ _ _ V E) (is_set _ _ _ _ _ _ _ X E0)). Qed.
Lemma set_x_lvec a i r : lvec a -> logic_set_x a i = Ok r -> lvec r.
Proof. intros L H. lparts L. unfold logic_set_x in H. inv_ok H. injection H as <-. apply (lvec_mk _ _ _ _ _ (is_set _ _ _ _ _ _ _ V E0) (is_set _ _ _ _ _ _ _ X E)). Qed.
Lemma set_z_lvec a i r : lvec a -> logic_set_z a i = Ok r -> lvec r.
Proof. intros L H. lparts L. unfold logic_set_z in H. inv_ok H. injection H as <-. apply (lvec_mk _ _ _ _ _ (is_set _ _ _ _ _ _ _ V E0) (is_set _ _ _ _ _ _ _ X E)). Qed.
Lemma set_l_lvec a i x r : lvec a -> logic_set_l a i x = Ok r -> lvec r.
Proof. intros L H. lparts L. unfold logic_set_l in H. inv_ok H. injection H as <-. apply (lvec_mk _ _ _ _ _ (is_set _ _ _ _ _ _ _ V E) (is_set _ _ _ _ _ _ _ X E0)). Qed.
Lemma is_bit0 b : is_vec (bit0 b) 0 0 false.
Proof. split; [|auto]. apply vec_nat; try (unfold int_ok, width; lia). destruct b; reflexivity. Qed.
Lemma bit0_lvec a b : lvec (mkLogic (bit0 a) (bit0 b)).
Proof. apply (lvec_mk _ _ 0 0 false); apply is_bit0. Qed.
Lemma of_bool_lvec b : lvec (logic_of_bool b).
Proof. destruct b; apply bit0_lvec. Qed.
Lemma decl_0 : declarable 0 0. Proof. unfold declarable, int_ok, width. lia. Qed.
Lemma get_lvec a i r : lvec a -> logic_get a i = Ok r -> lvec r.
Proof.
  intros L H. pose proof (default_lvec 0 0 false decl_0) as D. unfold logic_get in H. destruct (_ && _); [|injection H as <-; exact D]. cbv zeta in H. inv_ok H. destruct a0; [apply (set_x_lvec _ _ _ D H)|].
  inv_ok H. destruct a0; [apply (set_z_lvec _ _ _ D H)|]. inv_ok H. injection H as <-. apply bit0_lvec.
Qed.
Lemma slice_lvec a i j r : lvec a -> logic_slice_c a i j = Ok r -> lvec r.
Proof.
  intros L H. unfold logic_slice_c in H. inv_ok H. injection H as <-. apply (lvec_mk _ _ _ _ _ (slice_vec _ _ _ _ (proj1 L) E0) (slice_vec _ _ _ _ (proj1 (proj2 L)) E1)).
Qed.
Lemma slice_at_lvec a k i j r : lvec a -> 1 <= k < 2 ^ 31 -> logic_slice_r a k i j = Ok r -> lvec r.
Proof.
  intros L K H. unfold logic_slice_r in H. inv_ok H. injection H as <-. apply (lvec_mk _ _ _ _ _ (slice_at_vec _ _ _ _ _ (proj1 L) K E) (slice_at_vec _ _ _ _ _ (proj1 (proj2 L)) K E0)).
Qed.
Lemma extend_lvec a m r : lvec a -> 1 <= m < 2 ^ 31 -> logic_extend a m = Ok r -> lvec r /\ lsize r = m /\ lsgn r = lsgn a.
Proof.
  intros L K H. unfold logic_extend in H. inv_ok H. injection H as <-. destruct (extend_vec _ _ _ (proj1 L) K E0) as (V & M & N & S). pose proof (extend_vec _ _ _ (proj1 (proj2 L)) K E1) as X.
  assert (SX : bsgn (l_xz a) = false) by apply L. rewrite SX in X. split; [apply (lvec_mk _ _ (m - 1) 0 (lsgn a)); [repeat split; try apply V; assumption|exact X]|].
  split; [|exact S]. unfold lsize, bsize. cbn [l_val]. rewrite M, N. apply width_plain. lia.
Qed.
Lemma concat_decl a b r : vec a -> vec b -> bit_concat a b = Ok r -> declarable (bsize a + bsize b - 1) 0.
Proof.
  intros V U H. apply decl_plain. unfold bit_concat in H. cbv zeta in H. destruct (vec_facts a V) as (_ & _ & P). destruct (vec_facts b U) as (_ & _ & Q). rewrite ?bsize_bw, ?(bsize_bw b) in *.
  destruct (Z.ltb_spec (bw a + bw b) 64); [lia|discriminate].
Qed.
Lemma concat_lvec a b r : lvec a -> lvec b -> logic_concat a b = Ok r -> lvec r.
Proof.
  intros L K H. unfold logic_concat in H. cbv zeta in H. inv_ok H. injection H as <-.
  pose proof (concat_decl _ _ _ (proj1 L) (proj1 K) E) as D. destruct (lvec_is _ (default_lvec _ _ (lsgn a) D)) as [V X].
  refine (lvec_mk _ _ _ _ _ (is_assign _ _ _ _ _ _ V _ E1) (is_assign _ _ _ _ _ _ X _ E2)).
  - apply (concat_vec _ _ _ (proj1 L) (proj1 K) E).
  - apply (concat_vec _ _ _ (proj1 (proj2 L)) (proj1 (proj2 K)) E0).
Qed.
Lemma concat_bit_lvec a b r : lvec a -> vec b -> logic_concat_bit a b = Ok r -> lvec r.
Proof.
  intros L K H. unfold logic_concat_bit in H. cbv zeta in H. inv_ok H. injection H as <-.
  pose proof (concat_decl _ _ _ (proj1 L) K E) as D. destruct (lvec_is _ (default_lvec _ _ (lsgn a) D)) as [V X].
  refine (lvec_mk _ _ _ _ _ (is_assign _ _ _ _ _ _ V _ E1) (is_assign _ _ _ _ _ _ X _ E2)).
  - apply (concat_vec _ _ _ (proj1 L) K E).
  - refine (proj1 (extend_vec _ _ _ (proj1 (proj2 L)) _ E0)). destruct D as (_ & _ & D). unfold width in D. destruct (vec_facts _ (proj1 L)) as (_ & _ & P). destruct (vec_facts b K) as (_ & _ & Q).
    rewrite lw_lsize, (bsize_bw b) in *. change (bsize (l_val a)) with (bw (l_val a)) in *. lia.
Qed.
Lemma unpack_lvec a : forall ts base rs, lvec a -> Forall lvec ts -> logic_unpack_ a base ts = Ok rs -> Forall lvec rs.
Proof.
  induction ts as [|t ts IH]; intros base rs L F H; cbn [logic_unpack_] in H.
  - injection H as <-. constructor.
  - inversion F as [|? ? Ft Fts]; subst. cbv zeta in H. inv_ok H. injection H as <-. lparts Ft. constructor; [|apply (IH _ _ L Fts E4)].
    refine (lvec_mk _ _ _ _ _ (is_assign _ _ _ _ _ _ V _ E2) (is_assign _ _ _ _ _ _ X _ E3)).
    + apply (slice_vec _ _ _ _ (proj1 L) E0).
    + apply (slice_vec _ _ _ _ (proj1 (proj2 L)) E1).
Qed.
Lemma unpack_in a ts rs r : lvec a -> Forall lvec ts -> logic_unpack a ts = Ok rs -> In r rs -> lvec r.
Proof.
  intros L F H I. unfold logic_unpack in H. destruct (big_endian _ _).
  - inv_ok H. injection H as <-. apply in_rev in I. assert (G : Forall lvec (rev ts)) by (apply Forall_rev; exact F). pose proof (unpack_lvec _ _ _ _ L G E) as Q. rewrite Forall_forall in Q. apply Q. exact I.
  - pose proof (unpack_lvec _ _ _ _ L F H) as Q. rewrite Forall_forall in Q. apply Q. exact I.
Qed.
Lemma update_lvec a i j x r : lvec a -> logic_update_r a i j x = Ok r -> lvec r.
Proof.
  intros L H. unfold logic_update_r in H. cbv zeta in H. apply (ofold_inv lvec) in H; [exact H| |exact L]. intros y p z W _ Hz. unfold logic_update_step in Hz. cbv zeta in Hz. inv_ok Hz. apply (set_l_lvec _ _ _ _ W Hz).
Qed.
(** unary *)
Lemma and_assign_is v m l s b r : is_vec v m l s -> vec b -> bit_and_assign v b = Ok r -> is_vec r m l s.
Proof. intros (A & B & C & D) V H. destruct (compound_vec _ _ _ _ good_and A V H) as (E & F & G & K). repeat split; try apply E; congruence. Qed.
Lemma or_assign_is v m l s b r : is_vec v m l s -> vec b -> bit_or_assign v b = Ok r -> is_vec r m l s.
Proof. intros (A & B & C & D) V H. destruct (compound_vec _ _ _ _ good_or A V H) as (E & F & G & K). repeat split; try apply E; congruence. Qed.
Lemma not_lvec a r : lvec a -> logic_not a = Ok r -> lvec r.
Proof.
  intros L H. unfold logic_not in H. cbv zeta in H. inv_ok H. injection H as <-. destruct (lvec_is _ (default_lvec _ _ false (decl_n a L))) as [V X].
  pose proof (is_assign _ _ _ _ _ _ X (proj1 (proj2 L)) E0) as M. pose proof (is_assign _ _ _ _ _ _ V (proj1 (not_vec _ (proj1 L))) E) as N.
  apply (lvec_mk _ _ _ _ _ (and_assign_is _ _ _ _ _ _ N (proj1 (not_vec _ (proj1 M))) E1) M).
Qed.
Lemma lnot_lvec a : lvec (logic_lnot a).
Proof. unfold logic_lnot. destruct (bit_any_set _); [apply bit0_lvec|]. destruct (bit_any_set _); apply bit0_lvec. Qed.
Lemma neg_lvec a r : lvec a -> logic_neg a = Ok r -> lvec r.
Proof.
  intros L H. unfold logic_neg in H. destruct (bit_any_set _).
  - destruct (bit_neg _); try discriminate; injection H as <-; apply default_lvec, decl_l, L.
  - cbv zeta in H. inv_ok H. injection H as <-. destruct (lvec_is _ (number_lvec _ _ (lsgn a) 0 (decl_l a L))) as [V X].
    apply (lvec_mk _ _ _ _ _ (is_assign _ _ _ _ _ _ V (proj1 (neg_vec _ _ (proj1 L) E)) E0) X).
Qed.
Lemma plus_lvec a : lvec a -> lvec (logic_plus a).
Proof. intros L. unfold logic_plus. destruct (bit_any_set _); [apply default_lvec, decl_l, L|exact L]. Qed.
Lemma lresign_lvec s a r : lvec a -> logic_resign s a = Ok r -> lvec r.
Proof.
  intros L H. unfold logic_resign in H. cbv zeta in H. inv_ok H. injection H as <-. destruct (lvec_is _ (default_lvec _ _ s (decl_n a L))) as [V X].
  apply (lvec_mk _ _ _ _ _ (is_assign _ _ _ _ _ _ V (proj1 (resign_vec s _ (proj1 L))) E) (is_assign _ _ _ _ _ _ X (proj1 (proj2 L)) E0)).
Qed.
Lemma r_and_lvec a : forall is r, logic_r_and_scan a is = Ok r -> lvec r.
Proof.
  induction is as [|i is IH]; intros r H; cbn [logic_r_and_scan] in H; [injection H as <-; apply bit0_lvec|]. inv_ok H. destruct (negb a0 && negb a1); [injection H as <-; apply bit0_lvec|].
  destruct a1; [injection H as <-; apply bit0_lvec|]. apply (IH _ H).
Qed.
Lemma r_or_lvec a : forall is r, logic_r_or_scan a is = Ok r -> lvec r.
Proof.
  induction is as [|i is IH]; intros r H; cbn [logic_r_or_scan] in H; [injection H as <-; apply bit0_lvec|]. inv_ok H. destruct (a0 && negb a1); [injection H as <-; apply bit0_lvec|].
  destruct a1; [injection H as <-; apply bit0_lvec|]. apply (IH _ H).
Qed.
Lemma r_xor_lvec a r : logic_r_xor a = Ok r -> lvec r.
Proof. intros H. unfold logic_r_xor in H. inv_ok H. destruct (bit_any_set _); [injection H as <-; apply bit0_lvec|]. cbv zeta in H. injection H as <-. destruct (negb _); apply bit0_lvec. Qed.
(** binary *)
Definition goodl (op : logic -> logic -> outcome logic) : Prop := forall a b r, lvec a -> lvec b -> op a b = Ok r -> lvec r.
Lemma mixedl op : goodl op -> goodl (logic_mixed op).
Proof.
  intros G a b r L K H. unfold logic_mixed in H. cbv zeta in H. inv_ok H. destruct (vec_facts _ (proj1 L)) as (_ & _ & P). destruct (vec_facts _ (proj1 K)) as (_ & _ & Q).
  assert (M : 1 <= Z.max (lsize a) (lsize b) < 2 ^ 31) by (unfold lsize; rewrite ?(bsize_bw (l_val a)), ?(bsize_bw (l_val b)); lia).
  apply (G _ _ _ (proj1 (extend_lvec _ _ _ L M E)) (proj1 (extend_lvec _ _ _ K M E0)) H).
Qed.
Lemma sizedl op op' : goodl op -> goodl op' -> goodl (fun a b => if lsize a =? lsize b then op a b else logic_mixed op' a b).
Proof. intros G G' a b r L K H. cbv beta in H. destruct (_ =? _); [apply (G _ _ _ L K H)|apply (mixedl _ G' _ _ _ L K H)]. Qed.
Lemma is_good op a b m l s m2 l2 s2 r : good op -> is_vec a m l s -> is_vec b m2 l2 s2 -> width m2 l2 = width m l -> op a b = Ok r -> is_vec r (width m l - 1) 0 (s && s2).
Proof.
  intros G A B E H. destruct (G _ _ _ (proj1 A) (proj1 B) H) as (V & M & L & S). split; [exact V|]. rewrite (is_vec_bw _ _ _ _ A), (is_vec_bw _ _ _ _ B), E, Z.max_id in M.
  destruct A as (_ & _ & _ & <-), B as (_ & _ & _ & <-). auto.
Qed.
Lemma is_not a m l s : is_vec a m l s -> is_vec (bit_not a) (width m l - 1) 0 false.
Proof. intros A. rewrite <- (is_vec_bw _ _ _ _ A). apply not_vec. apply A. Qed.
Lemma same_width a b : l_same_size_op (lsize a) b = true -> lvec a -> lvec b -> width (lmsb b) (llsb b) = width (lmsb a) (llsb a).
Proof. intros H _ _. unfold l_same_size_op, same_size_op in H. rewrite andb_true_iff, Z.eqb_eq in H. destruct H as [H _]. exact H. Qed.
Lemma width_w n l : width (width n l - 1) 0 = width n l.
Proof. apply width_plain. unfold width. lia. Qed.
Lemma mask_ok a b r : lvec a -> lvec b -> width (lmsb b) (llsb b) = width (lmsb a) (llsb a) -> logic_mask a b = Ok r -> vec r.
Proof.
  intros L K W H. unfold logic_mask in H. inv_ok H.
  destruct (good_xor _ _ _ (proj1 (proj2 L)) (proj1 (proj2 K)) E) as (V1 & _). destruct (good_and _ _ _ V1 (proj1 (not_vec _ (proj1 (proj2 L)))) E0) as (V2 & _).
  destruct (good_and _ _ _ V2 (proj1 L) E1) as (V3 & _). destruct (good_xor _ _ _ (proj1 (proj2 K)) (proj1 (proj2 L)) E2) as (V4 & _).
  destruct (good_and _ _ _ V4 (proj1 (not_vec _ (proj1 (proj2 K)))) E3) as (V5 & _). destruct (good_and _ _ _ V5 (proj1 (not_vec _ (proj1 L))) E4) as (V6 & _).
  apply (good_or _ _ _ V3 V6 H).
Qed.
Lemma goodl_and_same : goodl logic_and_same.
Proof.
  intros a b r L K H. unfold logic_and_same in H. inv_ok H. injection H as <-. pose proof (same_width _ _ E L K) as W. lparts L. lparts K.
  pose proof (is_good _ _ _ _ _ _ _ _ _ _ good_and V V0 W E0) as Q1. pose proof (is_good _ _ _ _ _ _ _ _ _ _ good_and X X0 W E1) as Q2. pose proof (mask_ok _ _ _ L K W E2) as Q3.
  apply (lvec_mk _ _ _ _ _ (and_assign_is _ _ _ _ _ _ Q1 (proj1 (not_vec _ Q3)) E3) (or_assign_is _ _ _ _ _ _ Q2 Q3 E4)).
Qed.
Lemma goodl_or_same : goodl logic_or_same.
Proof.
  intros a b r L K H. unfold logic_or_same in H. inv_ok H. injection H as <-. pose proof (same_width _ _ E L K) as W. lparts L. lparts K.
  pose proof (is_good _ _ _ _ _ _ _ _ _ _ good_or V V0 W E0) as Q1. pose proof (is_good _ _ _ _ _ _ _ _ _ _ good_or X X0 W E1) as Q2. pose proof (mask_ok _ _ _ L K W E3) as Q3.
  pose proof (and_assign_is _ _ _ _ _ _ Q1 (proj1 (not_vec _ (proj1 Q2))) E2) as Q4.
  apply (lvec_mk _ _ _ _ _ (or_assign_is _ _ _ _ _ _ Q4 Q3 E4) (and_assign_is _ _ _ _ _ _ Q2 (proj1 (not_vec _ Q3)) E5)).
Qed.
Lemma goodl_xor_same : goodl logic_xor_same.
Proof.
  intros a b r L K H. unfold logic_xor_same in H. inv_ok H. injection H as <-. pose proof (same_width _ _ E L K) as W. lparts L. lparts K.
  pose proof (is_good _ _ _ _ _ _ _ _ _ _ good_xor V V0 W E0) as Q1. pose proof (is_good _ _ _ _ _ _ _ _ _ _ good_or X X0 W E1) as Q2.
  apply (lvec_mk _ _ _ _ _ (and_assign_is _ _ _ _ _ _ Q1 (proj1 (not_vec _ (proj1 Q2))) E2) Q2).
Qed.
Lemma goodl_and : goodl logic_and. Proof. apply (sizedl logic_and_same logic_and_same); apply goodl_and_same. Qed.
Lemma goodl_or : goodl logic_or. Proof. apply (sizedl logic_or_same logic_or_same); apply goodl_or_same. Qed.
Lemma goodl_xor : goodl logic_xor. Proof. apply (sizedl logic_xor_same logic_or_same); [apply goodl_xor_same|apply goodl_or_same]. Qed.
Lemma goodl_arith_same d op : good op -> goodl (logic_arith_same d op).
Proof.
  intros G a b r L K H. unfold logic_arith_same in H. cbv zeta in H. inv_ok H. destruct (_ || _).
  - destruct (op _ _); try discriminate; injection H as <-; apply default_lvec, (decl_n a L).
  - inv_ok H. apply (of_bit_lvec _ _ _ _ _ (decl_n a L) (proj1 (G _ _ _ (proj1 L) (proj1 K) E0)) H).
Qed.
Lemma goodl_arith d op : good op -> goodl (logic_arith d op).
Proof. intros G. apply (sizedl (logic_arith_same d op) (logic_arith_same d op)); apply goodl_arith_same, G. Qed.
Lemma goodl_shift op : good_shift op -> goodl (logic_shift op).
Proof.
  intros G a b r L K H. unfold logic_shift in H. cbv zeta in H. destruct (_ || _).
  - destruct (op _ _); try discriminate; injection H as <-; apply default_lvec, (decl_n a L).
  - inv_ok H. injection H as <-. pose proof (G _ _ _ (proj1 L) (proj1 K) E) as Q1. pose proof (G _ _ _ (proj1 (proj2 L)) (proj1 K) E0) as Q2.
    assert (SX : bsgn (l_xz a) = false) by apply L. rewrite SX, (lvec_bw a L) in Q2. apply (lvec_mk _ _ _ _ _ Q1 Q2).
Qed.
Lemma goodl_cmp op : goodl (logic_cmp op).
Proof.
  intros a b r L K H. unfold logic_cmp in H. destruct (_ || _).
  - destruct (op _ _); try discriminate; injection H as <-; apply bit0_lvec.
  - inv_ok H. injection H as <-. apply of_bool_lvec.
Qed.
Lemma goodl_compound op : goodl op -> goodl (logic_compound op).
Proof. intros G a b r L K H. unfold logic_compound in H. inv_ok H. apply (assign_lvec _ _ _ L (G _ _ _ L K E0) H). Qed.
Lemma one_lvec : lvec logic_one. Proof. apply bit0_lvec. Qed.

Lemma made4_lvec l : made4 l -> lvec l.
Proof.
  revert l. fix IH 2. intros l M. destruct M as [msb lsb s D|msb lsb s v D|msb lsb s b r D B E|msb lsb s t r D E|a v r M E|msb lsb s a r D M E|a i x r M E|a i r M E|a i r M E|a i x r M Mx W E
    |a i r M E|a i j r M E|a k i j r M K E|a m r M K E|a b r M B E|a ts rs r M F E I|a i j x r M Mx E|a i j x r M Mx E|f a r I M E|f a b r I M Mb E].
  - apply default_lvec, D.
  - apply number_lvec, D.
  - apply (of_bit_lvec _ _ _ _ _ D (made2_vec _ B) E).
  - apply (logic_text_lvec _ _ _ _ _ D E).
  - apply (assign_arith_lvec _ _ _ (IH _ M) E).
  - apply (convert_lvec _ _ _ _ _ D (IH _ M) E).
  - apply (set_lvec _ _ _ _ (IH _ M) E).
  - apply (set_x_lvec _ _ _ (IH _ M) E).
  - apply (set_z_lvec _ _ _ (IH _ M) E).
  - apply (set_l_lvec _ _ _ _ (IH _ M) E).
  - apply (get_lvec _ _ _ (IH _ M) E).
  - apply (slice_lvec _ _ _ _ (IH _ M) E).
  - apply (slice_at_lvec _ _ _ _ _ (IH _ M) K E).
  - apply (extend_lvec _ _ _ (IH _ M) K E).
  - apply (concat_bit_lvec _ _ _ (IH _ M) (made2_vec _ B) E).
  - refine (unpack_in _ _ _ _ (IH _ M) _ E I). clear E I. induction F as [|t ts T F IHF]; constructor; [exact (IH _ T)|exact IHF].
  - unfold logic_update_c in E. destruct (_ && _); [|discriminate]. apply (update_lvec _ _ _ _ _ (IH _ M) E).
  - apply (update_lvec _ _ _ _ _ (IH _ M) E).
  - pose proof (IH _ M) as L. cbn [In unary4] in I. repeat (destruct I as [<- | I]); [..|contradiction]; cbv beta in E; try (injection E as <-).
    + apply (not_lvec _ _ L E).
    + apply (neg_lvec _ _ L E).
    + apply plus_lvec, L.
    + apply lnot_lvec.
    + unfold logic_inc in E. inv_ok E. apply (assign_lvec _ _ _ L (goodl_arith _ _ good_add _ _ _ L one_lvec E0) E).
    + unfold logic_dec in E. inv_ok E. apply (assign_lvec _ _ _ L (goodl_arith _ _ good_sub _ _ _ L one_lvec E0) E).
    + apply (lresign_lvec _ _ _ L E).
    + apply (lresign_lvec _ _ _ L E).
    + apply (r_and_lvec _ _ _ E).
    + apply (r_or_lvec _ _ _ E).
    + apply (r_xor_lvec _ _ E).
    + unfold logic_r_nand in E. inv_ok E. injection E as <-. apply lnot_lvec.
    + unfold logic_r_nor in E. inv_ok E. injection E as <-. apply lnot_lvec.
    + unfold logic_r_xnor in E. inv_ok E. injection E as <-. apply lnot_lvec.
  - pose proof (IH _ M) as L. pose proof (IH _ Mb) as K. cbn [In binary4] in I. repeat (destruct I as [<- | I]); [..|contradiction].
    + apply (goodl_and _ _ _ L K E).
    + apply (goodl_or _ _ _ L K E).
    + apply (goodl_xor _ _ _ L K E).
    + apply (goodl_arith _ _ good_add _ _ _ L K E).
    + apply (goodl_arith _ _ good_sub _ _ _ L K E).
    + apply (goodl_arith _ _ good_mul _ _ _ L K E).
    + apply (goodl_arith _ _ good_div _ _ _ L K E).
    + apply (goodl_arith _ _ good_rem _ _ _ L K E).
    + apply (goodl_shift _ good_shl _ _ _ L K E).
    + apply (goodl_shift _ good_shr _ _ _ L K E).
    + apply (goodl_shift _ good_ashr _ _ _ L K E).
    + apply (concat_lvec _ _ _ L K E).
    + apply (assign_lvec _ _ _ L K E).
    + apply (goodl_cmp _ _ _ _ L K E).
    + apply (goodl_cmp _ _ _ _ L K E).
    + apply (goodl_cmp _ _ _ _ L K E).
    + apply (goodl_cmp _ _ _ _ L K E).
    + apply (goodl_cmp _ _ _ _ L K E).
    + apply (goodl_cmp _ _ _ _ L K E).
    + apply (goodl_compound _ goodl_and _ _ _ L K E).
    + apply (goodl_compound _ goodl_or _ _ _ L K E).
    + apply (goodl_compound _ goodl_xor _ _ _ L K E).
    + apply (goodl_compound _ (goodl_shift _ good_shr) _ _ _ L K E).
    + apply (goodl_compound _ (goodl_shift _ good_shl) _ _ _ L K E).
Qed.
