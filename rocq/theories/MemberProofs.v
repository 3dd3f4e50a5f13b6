(** Every vector the members outside [Reach.v] give is well formed: positions at compile time, references to slices, concatenations of many
    vectors, bit::unpack, packed arrays, conversions. *)
From Coq Require Import ZArith List Bool Lia Zify ZifyBool.
From Verif Require Import Cpp BigNum Bit Logic Util Arr More Rest Const Spec Reach ZBits Words BigNumProofs BigArith BitProofs BitExt LogicProofs ReachProofs ReachProofs2 ReachProofs4.
Import ListNotations.
Open Scope Z_scope.
Local Ltac Zify.zify_post_hook ::= idtac.

Lemma requires_ok {A} c (x : outcome A) r : requires c x = Ok r -> x = Ok r.
Proof. unfold requires. destruct c; [auto|discriminate]. Qed.
Lemma set_const_vec a i x r : vec a -> bit_set_const a i x = Ok r -> is_vec r (bmsb a) (blsb a) (bsgn a).
Proof.
  intros V H. destruct (vec_facts a V) as (A & B & C). unfold bit_set_const in H. rewrite bsize_bw in H. inv_ok H. vcase a V; rewrite Eb in H.
  - inv_ok H. injection H as <-. split; [|repeat split]. apply vec_nat; try assumption; [apply Rb|]. eapply set_in. eassumption.
  - apply requires_ok in H. injection H as <-. split; [|repeat split]. apply big_vec; try assumption. apply set_wfn. exact Ib.
Qed.
Lemma update_c_vec a i j x r : vec a -> bit_update_c a i j x = Ok r -> vec r. Proof. exact (update_vec a i j x r). Qed.
Lemma concat_all_vec args : forall a r, vec a -> Forall vec args -> bit_concat_all a args = Ok r -> vec r.
Proof.
  induction args as [|b args IH]; intros a r V F H; unfold bit_concat_all in H; cbn [ofold] in H; [injection H as <-; exact V|]. inversion F as [|? ? Fb Fa]; subst. inv_ok H. apply (IH a0 r); [|exact Fa|exact H]. apply (concat_vec _ _ _ V Fb E).
Qed.
Lemma of_big_vec msb lsb s ws r : declarable msb lsb -> bit_of_big msb lsb s ws = Ok r -> vec r.
Proof.
  intros D H. unfold bit_of_big in H. unfold requires in H. destruct (native_num (vsize msb lsb)) eqn:N; [|discriminate]. injection H as <-. destruct D as (A & B & C).
  unfold bit_of_native. apply vec_conv; try assumption; [apply Z.leb_le in N; exact N|reflexivity].
Qed.
Lemma copy_vec dst src i j r : vec dst -> bit_copy dst src i j = Ok r -> vec r.
Proof.
  intros V H. unfold bit_copy, util_copy in H. cbv zeta in H. destruct (_ <? _); [|inv_ok H; discriminate]. apply (ofold_inv vec) in H; [exact H| |exact V]. intros y p z W _ Hz. inv_ok Hz. apply (set_bit_vec _ _ _ _ W Hz).
Qed.
(** 4-state *)
Lemma set_const_lvec a i x r : lvec a -> logic_set_const a i x = Ok r -> lvec r.
Proof. intros L H. destruct (lvec_is a L) as [V X]. unfold logic_set_const in H. apply requires_ok in H. inv_ok H. injection H as <-. apply set_const_vec in E; [|apply V]. apply set_const_vec in E0; [|apply X]. refine (lvec_mk _ _ _ _ _ E _). destruct X as (_ & M & Lx & S). rewrite M, Lx, S in E0. exact E0. Qed.
Lemma set_x_const_lvec a i r : lvec a -> logic_set_x_const a i = Ok r -> lvec r.
Proof. intros L H. destruct (lvec_is a L) as [V X]. unfold logic_set_x_const in H. inv_ok H. injection H as <-. apply set_const_vec in E; [|apply X]. apply set_const_vec in E0; [|apply V]. refine (lvec_mk _ _ _ _ _ E0 _). destruct X as (_ & M & Lx & S). rewrite M, Lx, S in E. exact E. Qed.
Lemma set_z_const_lvec a i r : lvec a -> logic_set_z_const a i = Ok r -> lvec r.
Proof. intros L H. destruct (lvec_is a L) as [V X]. unfold logic_set_z_const in H. inv_ok H. injection H as <-. apply set_const_vec in E; [|apply X]. apply set_const_vec in E0; [|apply V]. refine (lvec_mk _ _ _ _ _ E0 _). destruct X as (_ & M & Lx & S). rewrite M, Lx, S in E. exact E. Qed.
Lemma update_c_lvec a i j x r : lvec a -> logic_update_c a i j x = Ok r -> lvec r.
Proof. intros L H. unfold logic_update_c in H. destruct (_ && _); [|discriminate]. apply (update_lvec _ _ _ _ _ L H). Qed.
Lemma concat_all_lvec args : forall a r, lvec a -> Forall lvec args -> logic_concat_all a args = Ok r -> lvec r.
Proof.
  induction args as [|b args IH]; intros a r V F H; unfold logic_concat_all in H; cbn [ofold] in H; [injection H as <-; exact V|]. inversion F as [|? ? Fb Fa]; subst. inv_ok H. apply (IH a0 r); [|exact Fa|exact H]. apply (concat_lvec _ _ _ V Fb E).
Qed.
Lemma clear_is b m l s : is_vec b m l s -> is_vec (bit_clear b) m l s.
Proof. intros (A & <- & <- & <-). apply is_zero, decl_of, A. Qed.
Lemma bit_unpack_lvec b : vec b -> forall ts base rs, Forall lvec ts -> bit_unpack_ b base ts = Ok rs -> Forall lvec rs.
Proof.
  intros V. induction ts as [|t ts IH]; intros base rs F H; cbn [bit_unpack_] in H; [injection H as <-; constructor|]. inversion F as [|? ? Ft Fts]; subst. apply requires_ok in H. cbv zeta in H. inv_ok H. injection H as <-.
  destruct (lvec_is t Ft) as [Vt Xt]. constructor; [|apply (IH _ _ Fts E1)]. refine (lvec_mk _ _ _ _ _ (is_assign _ _ _ _ _ _ Vt _ E0) (clear_is _ _ _ _ Xt)). apply (slice_vec _ _ _ _ V E).
Qed.
Lemma bit_unpack_all b ts rs : vec b -> Forall lvec ts -> bit_unpack b ts = Ok rs -> Forall lvec rs.
Proof.
  intros V F H. unfold bit_unpack in H. apply requires_ok in H. destruct (big_endian _ _).
  - inv_ok H. injection H as <-. apply Forall_rev. apply (bit_unpack_lvec b V _ _ _ (Forall_rev F) E).
  - apply (bit_unpack_lvec b V _ _ _ F H).
Qed.
Lemma rebound_lvec msb lsb s a r : declarable msb lsb -> lvec a -> logic_rebound msb lsb s a = Ok r -> lvec r.
Proof.
  intros D L H. unfold logic_rebound in H. destruct (_ && _); [injection H as <-; exact L|]. apply requires_ok in H. inv_ok H. injection H as <-.
  refine (lvec_mk _ _ _ _ _ (is_convert _ _ _ _ _ D (proj1 L) E) (is_convert _ _ _ _ _ D (proj1 (proj2 L)) E0)).
Qed.
Lemma get_at_lvec a op r : lvec a -> logic_get_at a op = Ok r -> lvec r.
Proof. intros L H. unfold logic_get_at in H. apply requires_ok in H. destruct (bval op); [|discriminate]. inv_ok H. apply (get_lvec _ _ _ L H). Qed.
Lemma copy_lvec dst src i j r : lvec dst -> logic_copy dst src i j = Ok r -> lvec r.
Proof.
  intros V H. unfold logic_copy, util_copy in H. cbv zeta in H. destruct (_ <? _); [|inv_ok H; discriminate]. apply (ofold_inv lvec) in H; [exact H| |exact V]. intros y p z W _ Hz. inv_ok Hz. apply (set_l_lvec _ _ _ _ W Hz).
Qed.
Lemma ashl_lvec a b r : lvec a -> lvec b -> logic_ashl a b = Ok r -> lvec r.
Proof. apply (goodl_shift _ good_shl). Qed.
Lemma ashl_bit_lvec a b r : lvec a -> vec b -> logic_ashl_bit a b = Ok r -> lvec r.
Proof. intros L V H. unfold logic_ashl_bit in H. inv_ok H. apply (ashl_lvec _ _ _ L (of_bit_lvec _ _ _ _ _ (decl_l a L) V E) H). Qed.
(** packed arrays *)
Lemma pa_get_lvec t a op r : 1 <= pa_base t < 2 ^ 31 -> lvec a -> pa_get t a op = Ok r -> lvec r.
Proof.
  intros B L H. unfold pa_get in H. inv_ok H. destruct a0; [injection H as <-; apply default_lvec; unfold declarable, int_ok, width; lia|]. inv_ok H. apply (slice_at_lvec _ _ _ _ _ L B H).
Qed.
Lemma pa_get_bit_vec t a op r : 1 <= pa_base t < 2 ^ 31 -> vec a -> pa_get_bit t a op = Ok r -> vec r.
Proof.
  intros B L H. unfold pa_get_bit in H. inv_ok H. destruct a0; [injection H as <-; apply zero_vec2; unfold declarable, int_ok, width; lia|]. inv_ok H. apply (slice_at_vec _ _ _ _ _ L B H).
Qed.
Lemma pa_update_bit_vec t a op v r : vec a -> pa_update_bit t a op v = Ok r -> vec r.
Proof. intros L H. unfold pa_update_bit in H. inv_ok H. destruct a0; [injection H as <-; exact L|]. inv_ok H. apply (update_at_vec _ _ _ _ _ L H). Qed.

Lemma slice_ref_idx_vec a k inc i v r : vec a -> bit_slice_ref_idx a k inc i v = Ok r -> vec r.
Proof. intros V H. unfold bit_slice_ref_idx in H. apply (update_at_vec _ _ _ _ _ V H). Qed.
Lemma pa_slice_bit_vec t a i j r : vec a -> pa_slice_array_bit t a i j = Ok r -> vec r.
Proof. intros V H. apply requires_ok in H. apply (slice_vec _ _ _ _ V H). Qed.
Lemma slice_ref_idx_lvec a k inc i v r : lvec a -> logic_slice_ref_idx a k inc i v = Ok r -> lvec r.
Proof. intros V H. unfold logic_slice_ref_idx in H. apply (update_lvec _ _ _ _ _ V H). Qed.
Definition decl_pa (t : parr_ty) : Prop := 1 <= pa_base t /\ pa_size t < 2 ^ 31.
Lemma pa_decl t : decl_pa t -> declarable (pa_size t - 1) 0.
Proof. intros [A B]. apply decl_plain. split; [|exact B]. unfold pa_size, pa_count, vsize. nia. Qed.
Lemma pa_ok_iff t a : decl_pa t -> (pa_ok t a = true <-> ltyped a (pa_size t) (pa_sgn t)).
Proof.
  intros D. pose proof (pa_decl t D) as (I & J & W). destruct D as [D1 D2]. unfold pa_ok. rewrite !andb_true_iff, !Z.eqb_eq, Bool.eqb_true_iff, Z.leb_le. split.
  - intros ((((O & _) & M) & L) & S). unfold logic_ok in O. rewrite !andb_true_iff, !Z.eqb_eq, negb_true_iff in O. destruct O as ((((O1 & O2) & O3) & O4) & O5). unfold lmsb, llsb, lsgn in *.
    assert (K : forall b, bit_ok b = true -> bmsb b = pa_size t - 1 -> blsb b = 0 -> vec b) by (intros b Ob Mb Lb; unfold vec, bw; rewrite Mb, Lb; auto).
    repeat split; try apply K; try assumption; congruence.
  - intros [T U]. assert (L : lvec a). { destruct T as (Va & (Ma & La) & Sa), U as (Vb & (Mb & Lb) & Sb). repeat split; try apply Va; try apply Vb; congruence. }
    apply lvec_ok in L. destruct T as (Va & (Ma & La) & Sa). unfold lmsb, llsb, lsgn. tauto.
Qed.
Lemma is_ltyped v x n s : is_vec v (n - 1) 0 s -> is_vec x (n - 1) 0 false -> ltyped (mkLogic v x) n s.
Proof. intros (A & B & C & D) (E & F & G & H). repeat split; cbn [l_val l_xz]; try assumption; try apply A; apply E. Qed.
Lemma ltyped_is a n s : ltyped a n s -> is_vec (l_val a) (n - 1) 0 s /\ is_vec (l_xz a) (n - 1) 0 false.
Proof. intros [(A & [B C] & D) (E & [F G] & H)]. unfold is_vec. auto 10. Qed.
Lemma pa_default_typed t : decl_pa t -> ltyped (pa_default t) (pa_size t) (pa_sgn t).
Proof. intros D. apply is_ltyped; [apply is_zero|apply is_mask]; apply pa_decl, D. Qed.
Lemma pa_arith_typed t v : decl_pa t -> ltyped (pa_of_arith t v) (pa_size t) (pa_sgn t).
Proof. intros D. apply is_ltyped; [apply is_arith|apply is_zero]; apply pa_decl, D. Qed.
Lemma pa_str_typed t v r : decl_pa t -> pa_of_str t v = Ok r -> ltyped r (pa_size t) (pa_sgn t).
Proof.
  intros D H. unfold pa_of_str in H. pose proof (lvec_is _ (logic_text_lvec _ _ _ _ _ (pa_decl t D) H)) as [V X]. unfold logic_of_str in H.
  destruct (native_num _); inv_ok H; injection H as <-; apply is_ltyped; assumption.
Qed.
Lemma update_typed a n s i j v r : ltyped a n s -> logic_update_r a i j v = Ok r -> ltyped r n s.
Proof.
  intros L H. unfold logic_update_r in H. cbv zeta in H. apply (ofold_inv (fun y => ltyped y n s)) in H; [exact H| |exact L]. intros y p z W _ Hz. unfold logic_update_step in Hz. cbv zeta in Hz. inv_ok Hz.
  destruct (ltyped_is _ _ _ W) as [V X]. unfold logic_set_l in Hz. inv_ok Hz. injection Hz as <-. apply (is_ltyped _ _ _ _ (is_set _ _ _ _ _ _ _ V E0) (is_set _ _ _ _ _ _ _ X E1)).
Qed.
Lemma pa_update_typed t a op v r : ltyped a (pa_size t) (pa_sgn t) -> pa_update t a op v = Ok r -> ltyped r (pa_size t) (pa_sgn t).
Proof. intros L H. unfold pa_update in H. inv_ok H. destruct a0; [injection H as <-; exact L|]. inv_ok H. apply (update_typed _ _ _ _ _ _ _ L H). Qed.
Lemma pa_update_c_typed t a i j v r : ltyped a (pa_size t) (pa_sgn t) -> pa_update_c t a i j v = Ok r -> ltyped r (pa_size t) (pa_sgn t).
Proof. intros L H. unfold pa_update_c, logic_update_c in H. destruct (_ && _); [|discriminate]. apply (update_typed _ _ _ _ _ _ _ L H). Qed.

Lemma members2 a : vec a ->
  (forall i x r, bit_set_const a i x = Ok r -> vec r) /\
  (forall i j v r, bit_slice_ref_c a i j v = Ok r -> vec r) /\ (forall i j v r, bit_slice_ref_r a i j v = Ok r -> vec r) /\ (forall k inc i v r, bit_slice_ref_idx a k inc i v = Ok r -> vec r) /\
  (forall args r, Forall vec args -> bit_concat_all a args = Ok r -> vec r) /\
  (forall src i j r, bit_copy a src i j = Ok r -> vec r) /\
  (forall t i j r, pa_slice_array_bit t a i j = Ok r -> vec r) /\
  (forall t op r, 1 <= pa_base t < 2 ^ 31 -> pa_get_bit t a op = Ok r -> vec r) /\
  (forall t op v r, pa_update_bit t a op v = Ok r -> vec r).
Proof.
  intros V. repeat match goal with |- _ /\ _ => split end; intros *.
  - intros H. apply (set_const_vec _ _ _ _ V H).
  - intros H. apply requires_ok in H. apply (update_vec _ _ _ _ _ V H).
  - intros H. apply (update_at_vec _ _ _ _ _ V H).
  - apply (slice_ref_idx_vec _ _ _ _ _ _ V).
  - intros F. apply (concat_all_vec _ _ _ V F).
  - apply (copy_vec _ _ _ _ _ V).
  - apply (pa_slice_bit_vec _ _ _ _ _ V).
  - intros B. apply (pa_get_bit_vec _ _ _ _ B V).
  - apply (pa_update_bit_vec _ _ _ _ _ V).
Qed.
Lemma members4 a : lvec a ->
  (forall i x r, logic_set_const a i x = Ok r -> lvec r) /\ (forall i r, logic_set_x_const a i = Ok r -> lvec r) /\ (forall i r, logic_set_z_const a i = Ok r -> lvec r) /\
  (forall i j v r, logic_slice_ref_c a i j v = Ok r -> lvec r) /\ (forall i j v r, logic_slice_ref_r a i j v = Ok r -> lvec r) /\ (forall k inc i v r, logic_slice_ref_idx a k inc i v = Ok r -> lvec r) /\
  (forall args r, Forall lvec args -> logic_concat_all a args = Ok r -> lvec r) /\
  (forall b rs ts, vec b -> Forall lvec ts -> bit_unpack b ts = Ok rs -> Forall lvec rs) /\
  (forall b r, lvec b -> logic_ashl a b = Ok r -> lvec r) /\ (forall b r, vec b -> logic_ashl_bit a b = Ok r -> lvec r) /\
  (forall msb lsb s r, declarable msb lsb -> logic_rebound msb lsb s a = Ok r -> lvec r) /\
  (forall op r, logic_get_at a op = Ok r -> lvec r) /\
  (forall src i j r, logic_copy a src i j = Ok r -> lvec r) /\
  (forall i j r, field_read a i j = Ok r -> lvec r) /\ (forall i j v r, field_write a i j v = Ok r -> lvec r) /\
  (forall t i j r, pa_slice_array t a i j = Ok r -> lvec r) /\
  (forall t op r, 1 <= pa_base t < 2 ^ 31 -> pa_get t a op = Ok r -> lvec r).
Proof.
  intros L. repeat match goal with |- _ /\ _ => split end; intros *.
  - apply (set_const_lvec _ _ _ _ L).
  - apply (set_x_const_lvec _ _ _ L).
  - apply (set_z_const_lvec _ _ _ L).
  - intros H. apply requires_ok in H. apply (update_c_lvec _ _ _ _ _ L H).
  - apply (update_lvec _ _ _ _ _ L).
  - apply (slice_ref_idx_lvec _ _ _ _ _ _ L).
  - intros F. apply (concat_all_lvec _ _ _ L F).
  - intros V F. apply (bit_unpack_all _ _ _ V F).
  - intros B. apply (ashl_lvec _ _ _ L B).
  - intros B. apply (ashl_bit_lvec _ _ _ L B).
  - intros D. apply (rebound_lvec _ _ _ _ _ D L).
  - apply (get_at_lvec _ _ _ L).
  - apply (copy_lvec _ _ _ _ _ L).
  - apply (slice_lvec _ _ _ _ L).
  - apply (update_c_lvec _ _ _ _ _ L).
  - apply (slice_lvec _ _ _ _ L).
  - intros B. apply (pa_get_lvec _ _ _ _ B L).
Qed.
(** the operators a program can call on vectors it made, one by one *)
Ltac in_list := repeat first [left; reflexivity|right].
Lemma closed2 a b r : made2 a -> made2 b ->
  bit_not a = r \/ bit_neg a = Ok r \/ bit_negate a = Ok r \/ bit_negate_in a = Ok r \/ bit_inc a = Ok r \/ bit_dec a = Ok r \/ bit_mask_off a = r \/ bit_to_signed a = r \/ bit_to_unsigned a = r \/ bit_clear a = r \/
  bit_and a b = Ok r \/ bit_or a b = Ok r \/ bit_xor a b = Ok r \/ bit_add a b = Ok r \/ bit_sub a b = Ok r \/ bit_mul a b = Ok r \/ bit_div a b = Ok r \/ bit_rem a b = Ok r \/
  bit_shl a b = Ok r \/ bit_shr a b = Ok r \/ bit_ashr a b = Ok r \/ bit_concat a b = Ok r \/ bit_assign a b = Ok r \/
  bit_and_assign a b = Ok r \/ bit_or_assign a b = Ok r \/ bit_xor_assign a b = Ok r \/ bit_shift_assign bit_shr a b = Ok r \/ bit_shift_assign bit_shl a b = Ok r -> made2 r.
Proof.
  intros A B H. repeat match type of H with _ \/ _ => destruct H as [H|H] end;
  first [match type of H with ?f a b = Ok r => apply (M2_binary f a b); [in_list|exact A|exact B|exact H] end
        |match type of H with ?f a = Ok r => apply (M2_unary f a); [in_list|exact A|exact H] end
        |match type of H with ?f a = r => apply (M2_unary (fun y => Ok (f y)) a); [in_list|exact A|rewrite H; reflexivity] end].
Qed.
Lemma closed4 a b r : made4 a -> made4 b ->
  logic_not a = Ok r \/ logic_neg a = Ok r \/ logic_plus a = r \/ logic_lnot a = r \/ logic_inc a = Ok r \/ logic_dec a = Ok r \/ logic_resign true a = Ok r \/ logic_resign false a = Ok r \/
  logic_r_and a = Ok r \/ logic_r_or a = Ok r \/ logic_r_xor a = Ok r \/ logic_r_nand a = Ok r \/ logic_r_nor a = Ok r \/ logic_r_xnor a = Ok r \/
  logic_and a b = Ok r \/ logic_or a b = Ok r \/ logic_xor a b = Ok r \/ logic_add a b = Ok r \/ logic_sub a b = Ok r \/ logic_mul a b = Ok r \/ logic_div a b = Ok r \/ logic_rem a b = Ok r \/
  logic_shl a b = Ok r \/ logic_shr a b = Ok r \/ logic_ashr a b = Ok r \/ logic_concat a b = Ok r \/ logic_assign a b = Ok r \/
  logic_eq a b = Ok r \/ logic_ne a b = Ok r \/ logic_lt a b = Ok r \/ logic_gt a b = Ok r \/ logic_le a b = Ok r \/ logic_ge a b = Ok r \/
  logic_compound logic_and a b = Ok r \/ logic_compound logic_or a b = Ok r \/ logic_compound logic_xor a b = Ok r \/ logic_compound logic_shr a b = Ok r \/ logic_compound logic_shl a b = Ok r -> made4 r.
Proof.
  intros A B H. repeat match type of H with _ \/ _ => destruct H as [H|H] end;
  first [match type of H with ?f a b = Ok r => apply (M4_binary f a b); [in_list|exact A|exact B|exact H] end
        |match type of H with ?f a = Ok r => apply (M4_unary f a); [in_list|exact A|exact H] end
        |match type of H with ?f a = r => apply (M4_unary (fun y => Ok (f y)) a); [in_list|exact A|rewrite H; reflexivity] end].
Qed.

Lemma arrays_type t a : 1 <= pa_base t -> pa_base t * width (pa_msb t) (pa_lsb t) < 2 ^ 31 -> (pa_ok t a = true <-> ltyped a (pa_base t * width (pa_msb t) (pa_lsb t)) (pa_sgn t)).
Proof. intros A B. apply (pa_ok_iff t a (conj A B)). Qed.
Lemma arrays_made t : 1 <= pa_base t -> pa_base t * width (pa_msb t) (pa_lsb t) < 2 ^ 31 ->
  pa_ok t (pa_default t) = true /\ (forall v, pa_ok t (pa_of_arith t v) = true) /\ (forall text r, pa_of_str t text = Ok r -> pa_ok t r = true).
Proof.
  intros A B. pose proof (conj A B : decl_pa t) as D. split; [|split]; intros; apply (pa_ok_iff _ _ D); [apply pa_default_typed, D|apply pa_arith_typed, D|]. eapply pa_str_typed; [exact D|eassumption].
Qed.
Lemma arrays_kept t a : 1 <= pa_base t -> pa_base t * width (pa_msb t) (pa_lsb t) < 2 ^ 31 -> pa_ok t a = true ->
  (forall op v r, pa_update t a op v = Ok r -> pa_ok t r = true) /\ (forall i j v r, pa_update_c t a i j v = Ok r -> pa_ok t r = true).
Proof.
  intros A B O. pose proof (conj A B : decl_pa t) as D. apply (pa_ok_iff _ _ D) in O. split; intros; apply (pa_ok_iff _ _ D); [eapply pa_update_typed|eapply pa_update_c_typed]; eassumption.
Qed.
