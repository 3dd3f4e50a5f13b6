(** The type checker of SpecType.v on 4-state programs, and the theorems about the library. *)
From Coq Require Import ZArith List Bool Lia.
From Verif Require Import Cpp Bit Logic Spec SpecExact SpecMachine SpecWide SpecFour MachineProg WideProg FourProg WideProofs5 FourProofs4 SpecType TypeProofs.
From Verif Require SpecExact4 BitProofs.
Import ListNotations.
Open Scope Z_scope.
Local Ltac Zify.zify_post_hook ::= idtac.

Lemma mask_typed l : lvec l -> ty_bit (l_xz l) = mask_ty (ty_logic l).
Proof. intros (_ & _ & E1 & E2 & E3). unfold ty_logic, ty_bit, mask_ty. cbn [t_msb t_lsb]. rewrite E1, E2, E3. reflexivity. Qed.
Lemma lw_ty l : tw (ty_logic l) = lw l. Proof. reflexivity. Qed.
Lemma plain_ty l : ordinary (ty_logic l) = plain_range l. Proof. reflexivity. Qed.

Lemma agree_some {A} (type : A -> ty) t o : well_typed type t o -> agree type (Some t) o. Proof. exact (fun x => x). Qed.
Lemma agree_check {A} (type : A -> ty) c t o : (c = true -> well_typed type t o) -> (c = false -> rejected o) -> agree type (check c t) o.
Proof. destruct c; cbn; auto. Qed.
Lemma agree_unless d (instead : logic) t o : agree ty_logic t o -> (forall u, t = Some u -> ty_logic instead = u) ->
  (t = None -> o = IllFormed) -> agree ty_logic t (unless d instead o).
Proof.
  intros H J K. destruct t as [t|]; cbn [agree] in *.
  - specialize (J t eq_refl). destruct H as [H1 H2]. destruct o; cbn [unless]; destruct d; try (apply wt_ok; auto); try leaf; try congruence; try (split; discriminate).
  - rewrite (K eq_refl). apply rej_ill.
Qed.
Lemma agree_certain t o : agree ty_bit t o -> agree ty_logic t (omap certain o).
Proof.
  destruct t as [t|]; cbn [agree].
  - intros [H1 H2]. destruct o; cbn; try (split; discriminate); [apply wt_ok; apply H2; reflexivity|congruence].
  - intros H x. destruct o as [a| | | |]; cbn; try discriminate. exfalso. exact (H a eq_refl).
Qed.
Lemma agree_and t c o : agree ty_bit (check c t) o -> c = false -> rejected o.
Proof. intros H ->. exact H. Qed.

(** the operators that reject pairs of types say so at once *)
Lemma arith_ill o a b : match o with Plus | Less | Times | Quot | Rem => True | _ => False end ->
  type_bin o (ty_bit a) (ty_bit b) = None -> any_bin o a b = IllFormed.
Proof.
  intros K T. assert (P : forall c t, check c t = None -> c = false) by (intros [] t; [discriminate|reflexivity]).
  destruct o; try contradiction; cbn [type_bin any_bin] in *; apply P in T; rewrite ?pairing_pairs, <- ?small_narrow in T.
  - unfold any_sum, computed, combined. cbn zeta. rewrite T. destruct (small a && small b); reflexivity.
  - unfold any_difference, computed, combined. cbn zeta. rewrite T. destruct (small a && small b); reflexivity.
  - unfold any_product, computed, combined. cbn zeta. rewrite T. destruct (small a && small b); reflexivity.
  - unfold any_quotient, computed, combined. cbn zeta. cbn [ty_bit t_sgn] in T. destruct (pairs_up a b); [|destruct (small a && small b); reflexivity].
    destruct (small a && small b); [discriminate|]. destruct (bsgn a); [reflexivity|discriminate].
  - unfold any_remainder, remainder, combined. cbn zeta. cbn [ty_bit t_sgn] in T. destruct (pairs_up a b); [|destruct (small a && small b); reflexivity].
    destruct (small a && small b); [discriminate|]. destruct (bsgn a); [reflexivity|discriminate].
Qed.
Lemma four_arith_typed o d a b : match o with Plus | Less | Times | Quot | Rem => True | _ => False end ->
  agree ty_logic (if fitting_widths (ty_logic a) (ty_logic b) then type_bin o (ty_logic a) (ty_logic b) else None)
    (four_arith d (any_bin o) a b).
Proof.
  intros K. unfold four_arith. cbn zeta.
  replace (widths_ok a b) with (fitting_widths (ty_logic a) (ty_logic b)) by (unfold fitting_widths, widths_ok; rewrite !lw_ty; destruct (_ <? _); reflexivity).
  destruct (fitting_widths _ _); cbn [negb]; [|cbn [agree]; leaf].
  apply agree_unless; [apply agree_certain, bin_typed| |].
  - intros u E. destruct o; try contradiction; cbn [type_bin] in E; unfold check in E; destruct (_ : bool); try discriminate; injection E as <-; reflexivity.
  - intros E. rewrite (arith_ill o _ _ K E). reflexivity.
Qed.

Lemma two_bind (f : bit -> outcome bit) (v m : bit) t u : agree ty_bit (Some t) (f v) -> agree ty_bit (Some u) (f m) ->
  well_typed ty_logic t (let! x := f v in let! y := f m in Ok (mkLogic x y)).
Proof.
  intros [H1 H2] [K1 K2]. destruct (f v) as [x| | | |]; cbn [bind]; try (split; discriminate); [|congruence].
  destruct (f m) as [y| | | |]; cbn [bind]; try (split; discriminate); [|congruence]. apply wt_ok. apply H2. reflexivity.
Qed.
Lemma both_typed f l t u : agree ty_bit (Some t) (f (l_val l)) -> agree ty_bit (Some u) (f (l_xz l)) -> well_typed ty_logic t (both f l).
Proof. apply two_bind. Qed.
Lemma both_rejected f l : rejected (f (l_val l)) -> rejected (both f l).
Proof. intros H x. unfold both. destruct (f (l_val l)) as [y| | | |]; cbn [bind]; try discriminate. exfalso. exact (H y eq_refl). Qed.
Lemma both_rejected' f l : rejected (f (l_xz l)) -> rejected (both f l).
Proof.
  intros H x. unfold both. destruct (f (l_val l)) as [y| | | |]; cbn [bind]; try discriminate.
  destruct (f (l_xz l)) as [z| | | |]; cbn [bind]; try discriminate. exfalso. exact (H z eq_refl).
Qed.

Lemma single_ty c : ty_logic (single c) = one_ty. Proof. reflexivity. Qed.
Lemma search_compiles l d k : forall i, search l d k i <> IllFormed.
Proof.
  induction k as [|k IH]; intros i; cbn [search]; [discriminate|].
  pose proof (position_typed (l_val l) i). pose proof (position_typed (l_xz l) i).
  destruct (any_position (l_val l) i) as [v| | | |]; cbn [bind]; try discriminate; [|congruence].
  destruct (any_position (l_xz l) i) as [m| | | |]; cbn [bind]; try discriminate; [|congruence].
  destruct m; [discriminate|]. destruct d, v; try discriminate; apply IH.
Qed.
Lemma one_typed (o : outcome logic) : o <> IllFormed -> (forall a, o = Ok a -> ty_logic a = one_ty) -> well_typed ty_logic one_ty o.
Proof. split; assumption. Qed.
Lemma search_typed l d k i : well_typed ty_logic one_ty (omap single (search l d k i)).
Proof.
  pose proof (search_compiles l d k i). destruct (search l d k i); cbn; try (split; discriminate); [apply wt_ok; reflexivity|congruence].
Qed.
Lemma inverted_typed c o : agree ty_logic (check c one_ty) o -> agree ty_logic (check c one_ty) (inverted o).
Proof.
  destruct c; cbn [check agree]; unfold inverted.
  - intros [H1 H2]. destruct o; cbn; try (split; discriminate); [apply wt_ok; reflexivity|congruence].
  - intros H x. destruct o as [a| | | |]; cbn; try discriminate. exfalso. exact (H a eq_refl).
Qed.
Lemma parity_typed l : agree ty_logic (check (negb (lsgn l) && (1 <? lw l) && (lw l <=? 64)) one_ty) (four_parity l).
Proof.
  unfold four_parity. assert (W : 1 <= lw l) by (apply (BitProofs.bw_pos (l_val l))).
  replace (lsgn l || (lw l =? 1) || (64 <? lw l)) with (negb (negb (lsgn l) && (1 <? lw l) && (lw l <=? 64))) by (destruct (lsgn l); cbn [negb orb andb]; lia).
  destruct (_ && _); cbn [negb check agree]; leaf.
Qed.

Lemma slice_typed4 l i j : lvec l -> agree ty_logic (type_un4 (USlice i j) (ty_logic l)) (four_slice l i j).
Proof.
  intros V. cbn [type_un4]. unfold four_slice. pose proof (slice_typed (l_val l) i j) as Hv. pose proof (slice_typed (l_xz l) i j) as Hm.
  rewrite (mask_typed l V) in Hm. cbn [type_un] in *. change (ty_bit (l_val l)) with (ty_logic l) in Hv.
  change (sliceable (mask_ty (ty_logic l)) i j) with (sliceable (ty_logic l) i j) in Hm.
  apply agree_check; intros E; rewrite E in *; cbn [check] in *.
  - replace (Z.max i j <? lw l) with true; [|symmetry; unfold sliceable in E; rewrite lw_ty in E; destruct (Z.max i j <? lw l); [reflexivity|discriminate]].
    eapply both_typed; [exact Hv|exact Hm].
  - destruct (Z.max i j <? lw l); [|apply rej_ill]. apply both_rejected. exact Hv.
Qed.
Lemma widen_typed4 l m : 1 <= m -> lvec l -> agree ty_logic (type_un4 (UWiden m) (ty_logic l)) (four_widen l m).
Proof.
  intros M V. cbn [type_un4]. unfold four_widen. pose proof (resize_typed (l_val l) m M) as Hv. pose proof (resize_typed (l_xz l) m M) as Hm.
  rewrite (mask_typed l V) in Hm. cbn [type_un] in *. change (ty_bit (l_val l)) with (ty_logic l) in Hv.
  change (tw (mask_ty (ty_logic l))) with (lw l) in Hm. change (t_sgn (mask_ty (ty_logic l))) with false in Hm. cbn [orb negb andb] in Hm.
  change (ordinary (mask_ty (ty_logic l))) with (ordinary (ty_logic l)) in Hm. rewrite lw_ty in *.
  destruct (Z.ltb_spec (lw l) m) as [L|L]; cbn [orb check] in *.
  - replace (lw l <=? m) with true by lia. eapply both_typed; [exact Hv|exact Hm].
  - destruct (Z.eqb_spec m (lw l)) as [E|E]; cbn [andb].
    + replace (lw l <=? m) with true by lia. destruct (ordinary (ty_logic l)) eqn:Q; cbn [check agree] in *.
      * rewrite orb_true_r in Hv. cbn [check] in Hv. eapply both_typed; [exact Hv|exact Hm].
      * apply both_rejected'. exact Hm.
    + replace (lw l <=? m) with false by lia. cbn [check agree]. apply rej_ill.
Qed.
Lemma un_typed4 o l : un4_ok o -> lvec l -> agree ty_logic (type_un4 o (ty_logic l)) (four_un o l).
Proof.
  intros O V. destruct o; cbn [four_un un4_ok] in *.
  - cbn [type_un4]. unfold four_minus. pose proof (un_typed Minus (l_val l) I) as H. cbn [type_un any_un] in H.
    apply agree_unless; [apply agree_certain; exact H| |].
    + intros u E. unfold check in E. destruct (narrow _); [|discriminate]. injection E as <-. reflexivity.
    + unfold check, any_minus. change (ty_logic l) with (ty_bit (l_val l)). rewrite <- small_narrow. destruct (small (l_val l)); [discriminate|reflexivity].
  - cbn [type_un4 agree]. unfold four_plus. destruct (doubtful l); apply wt_ok; reflexivity.
  - leaf.
  - leaf.
  - leaf.
  - leaf.
  - apply widen_typed4; [lia|exact V].
  - apply slice_typed4. exact V.
  - cbn [type_un4]. unfold four_slice_dynamic. pose proof (un_typed (SliceN m i j) (l_val l) O) as Hv. pose proof (un_typed (SliceN m i j) (l_xz l) O) as Hm.
    rewrite (mask_typed l V) in Hm. cbn [type_un any_un] in *. change (ty_bit (l_val l)) with (ty_logic l) in Hv. change (narrow (mask_ty (ty_logic l))) with (narrow (ty_logic l)) in Hm.
    destruct (negb (narrow (ty_logic l)) || (m <=? 64)); cbn [check] in *; [eapply both_typed; [exact Hv|exact Hm]|apply both_rejected; exact Hv].
  - cbn [type_un4 agree]. unfold four_at. destruct (negb _); [leaf|]. pose proof (position_typed (l_val l) i). pose proof (position_typed (l_xz l) i).
    destruct (any_position (l_xz l) i) as [m| | | |]; cbn [bind]; try (split; discriminate); [|congruence].
    destruct (any_position (l_val l) i) as [v| | | |]; cbn [bind]; try (split; discriminate); [|congruence]. destruct (m && _); leaf.
  - apply search_typed.
  - apply search_typed.
  - apply parity_typed.
  - apply (inverted_typed true). apply search_typed.
  - apply (inverted_typed true). apply search_typed.
  - apply inverted_typed. apply parity_typed.
Qed.

Lemma table_typed tab a b : agree ty_logic (check (tabled (ty_logic a) (ty_logic b)) (range (Z.max (lw a) (lw b)) false)) (four_table tab a b).
Proof.
  unfold four_table, tabled. cbn zeta. rewrite !lw_ty.
  replace (widths_ok a b) with (fitting_widths (ty_logic a) (ty_logic b)) by (unfold fitting_widths, widths_ok; rewrite !lw_ty; destruct (_ <? _); reflexivity).
  change (t_sgn (ty_logic a)) with (lsgn a). change (t_sgn (ty_logic b)) with (lsgn b). change (t_lsb (ty_logic a)) with (llsb a). change (t_lsb (ty_logic b)) with (llsb b).
  change (t_msb (ty_logic a)) with (lmsb a). change (t_msb (ty_logic b)) with (lmsb b).
  destruct (if lw a =? lw b then _ else _); cbn [negb orb andb check agree]; [|leaf]. destruct (lsgn a && lsgn b); cbn [negb check agree]; leaf.
Qed.
Lemma four_shift_typed o a k : match o with Shl | Shr | Ashr => True | _ => False end -> lvec a ->
  agree ty_logic (type_bin o (ty_logic a) (ty_logic k)) (four_shift (any_bin o) a k).
Proof.
  intros K V. pose proof (bin_typed o (l_val a) (l_val k)) as Hv. pose proof (bin_typed o (l_xz a) (l_val k)) as Hm. rewrite (mask_typed a V) in Hm.
  change (ty_bit (l_val a)) with (ty_logic a) in *. change (ty_bit (l_val k)) with (ty_logic k) in *.
  assert (T : type_bin o (ty_logic a) (ty_logic k) = check (negb (narrow (ty_logic a)) || narrow (ty_logic k)) (range (lw a) (lsgn a && lsgn k))) by (destruct o; try contradiction; reflexivity).
  assert (M : type_bin o (mask_ty (ty_logic a)) (ty_logic k) = check (negb (narrow (ty_logic a)) || narrow (ty_logic k)) (range (lw a) false)) by (destruct o; try contradiction; reflexivity).
  rewrite M in Hm. rewrite T in *. unfold four_shift. destruct (negb (narrow (ty_logic a)) || narrow (ty_logic k)) eqn:Q; cbn [check] in *.
  - apply agree_unless; [apply (two_bind (fun x => any_bin o x (l_val k)) (l_val a) (l_xz a) _ _ Hv Hm)| |discriminate]. intros u E. injection E as <-. reflexivity.
  - assert (E : any_bin o (l_val a) (l_val k) = IllFormed).
    { apply orb_false_iff in Q. destruct Q as [Q1 Q2]. apply negb_false_iff in Q1. change (small (l_val a) = true) in Q1. change (small (l_val k) = false) in Q2.
      destruct o; try contradiction; cbn [any_bin]; unfold any_left, any_right, any_arith, any_shift; rewrite Q1, Q2; reflexivity. }
    rewrite E. cbn. leaf.
Qed.
Lemma allowed_ill_rel r a b : type_rel r (ty_bit a) (ty_bit b) = false -> any_rel r a b = IllFormed.
Proof.
  assert (Eq : forall a b, type_equal (ty_bit a) (ty_bit b) = false -> any_equal a b = IllFormed).
  { intros x y T. unfold type_equal in T. rewrite <- !small_narrow, !tw_bit in T. cbn [ty_bit t_sgn] in T. unfold any_equal, both_signed.
    destruct (small x); [discriminate|]. destruct (small y); [discriminate|]. cbn [orb andb] in *. destruct (bsgn x && bsgn y); [|discriminate]. cbn [negb orb] in T. rewrite T. reflexivity. }
  destruct r; cbn [type_rel any_rel]; intros T.
  - apply Eq. exact T.
  - rewrite (Eq a b T). reflexivity.
  - unfold any_less, any_order, type_order in *. rewrite <- !small_narrow in T. destruct (small a); [discriminate|]. destruct (small b); [reflexivity|discriminate].
  - unfold any_less_equal, any_order, type_order in *. rewrite <- !small_narrow in T. destruct (small a); [discriminate|]. destruct (small b); [reflexivity|].
    cbn [orb negb andb] in T. unfold wide_greater_equal. rewrite (Eq b a T). reflexivity.
  - unfold any_greater, any_order, type_order in *. rewrite <- !small_narrow in T. destruct (small a); [discriminate|]. destruct (small b); [reflexivity|discriminate].
  - unfold any_greater_equal, any_order, type_order in *. rewrite <- !small_narrow in T. destruct (small a); [discriminate|]. destruct (small b); [reflexivity|].
    cbn [orb negb andb] in T. unfold wide_greater_equal. rewrite (Eq a b T). reflexivity.
Qed.
Lemma compare_typed r a b : agree ty_logic (check (type_rel r (ty_logic a) (ty_logic b)) one_ty) (four_compare (any_rel r) a b).
Proof.
  unfold four_compare. apply agree_unless.
  - pose proof (rel_typed r (l_val a) (l_val b)) as H. unfold ty_logic. destruct (type_rel _ _ _); cbn [check agree allowed] in *.
    + destruct (any_rel r (l_val a) (l_val b)); cbn; try (split; discriminate); [apply wt_ok; reflexivity|congruence].
    + intros x. destruct (any_rel r (l_val a) (l_val b)) as [y| | | |]; cbn; try discriminate. exfalso. exact (H y eq_refl).
  - intros u E. unfold check in E. destruct (type_rel _ _ _); [|discriminate]. injection E as <-. reflexivity.
  - intros E. unfold check in E. destruct (type_rel _ _ _) eqn:T; [discriminate|]. rewrite (allowed_ill_rel r _ _ T). reflexivity.
Qed.
Lemma xz_width l : lvec l -> bw (l_xz l) = lw l.
Proof. intros (_ & _ & E1 & E2 & _). unfold bw, lw, lmsb, llsb. rewrite E1, E2. reflexivity. Qed.
Lemma join_typed4 a b : lvec a -> lvec b -> agree ty_logic (check (lw a + lw b <? 64) (range (lw a + lw b) (lsgn a))) (four_join a b).
Proof.
  intros Va Vb. unfold four_join, joined. cbn zeta. rewrite !xz_width by assumption. change (bw (l_val a)) with (lw a). change (bw (l_val b)) with (lw b). rewrite Z.ltb_antisym.
  destruct (64 <=? lw a + lw b); cbn [negb check agree]; [leaf|]. destruct (_ <=? lw b); [split; discriminate|]. cbn [bind]. leaf.
Qed.
Lemma join_bit_typed4 a b : agree ty_logic (check (lw a + bw b <? 64) (range (lw a + bw b) (lsgn a))) (four_join_bit a b).
Proof.
  unfold four_join_bit, joined. cbn zeta. change (bw (l_val a)) with (lw a). rewrite Z.ltb_antisym.
  destruct (64 <=? lw a + bw b); cbn [negb check agree]; [leaf|]. destruct (_ <=? bw b); [split; discriminate|]. cbn [bind]. leaf.
Qed.
Lemma if_check (c d : bool) t : (if c then check d t else None) = check (c && d) t.
Proof. destruct c; reflexivity. Qed.
Lemma bin_typed4 o a b : lvec a -> lvec b -> agree ty_logic (type_bin4 o (ty_logic a) (ty_logic b)) (four_bin o a b).
Proof.
  intros Va Vb.
  destruct o; cbn [type_bin4 four_bin]; rewrite <- ?andb_assoc, <- ?if_check.
  - apply (four_arith_typed Plus). exact I.
  - apply (four_arith_typed Less). exact I.
  - apply (four_arith_typed Times). exact I.
  - rewrite ?if_check. rewrite <- (if_check (fitting_widths _ _)). apply (four_arith_typed Quot). exact I.
  - rewrite ?if_check. rewrite <- (if_check (fitting_widths _ _)). apply (four_arith_typed Rem). exact I.
  - apply table_typed.
  - apply table_typed.
  - unfold four_xor. cbn zeta. rewrite !lw_ty. destruct (lw a =? lw b) eqn:E; cbn [negb]; [|apply table_typed].
    change (t_sgn (ty_logic a)) with (lsgn a). change (t_sgn (ty_logic b)) with (lsgn b). change (t_lsb (ty_logic b)) with (llsb b). change (t_msb (ty_logic b)) with (lmsb b).
    replace (Z.max (lw a) (lw b)) with (lw a) by lia.
    destruct (llsb b <=? lmsb b); cbn [negb orb andb check agree]; [|leaf]. destruct (lsgn a && lsgn b); cbn [negb check agree]; leaf.
  - apply (four_shift_typed Shl); [exact I|exact Va].
  - apply (four_shift_typed Shr); [exact I|exact Va].
  - apply (four_shift_typed Ashr); [exact I|exact Va].
  - apply (compare_typed REq).
  - apply (compare_typed RNe).
  - apply (compare_typed RLt).
  - apply (compare_typed RLe).
  - apply (compare_typed RGt).
  - apply (compare_typed RGe).
  - apply join_typed4; assumption.
Qed.
Lemma assign_typed4 a b : lvec a -> lvec b -> agree ty_logic (check (type_assign (ty_logic a) (ty_logic b)) (ty_logic a)) (four_assign a b).
Proof.
  intros Va Vb. pose proof (assign_typed (l_val a) (l_val b)) as Hv. pose proof (assign_typed (l_xz a) (l_xz b)) as Hm.
  rewrite !mask_typed in Hm by assumption. change (type_assign (mask_ty (ty_logic a)) (mask_ty (ty_logic b))) with (type_assign (ty_logic a) (ty_logic b)) in Hm.
  change (ty_bit (l_val a)) with (ty_logic a) in *. change (ty_bit (l_val b)) with (ty_logic b) in *. unfold four_assign.
  destruct (type_assign _ _); cbn [check agree] in *.
  - destruct Hv as [H1 H2], Hm as [K1 K2]. destruct (any_assign (l_val a) _) as [x| | | |]; cbn [bind]; try (split; discriminate); [|congruence].
    destruct (any_assign (l_xz a) _) as [y| | | |]; cbn [bind]; try (split; discriminate); [|congruence]. apply wt_ok. apply H2. reflexivity.
  - intros x. destruct (any_assign (l_val a) _) as [y| | | |]; cbn [bind]; try discriminate. exfalso. exact (Hv y eq_refl).
Qed.
Lemma assigned_typed4 a b r t : lvec a -> (forall x, r = Ok x -> lvec x) -> agree ty_logic t r ->
  agree ty_logic (check (ordinary (ty_logic a) && (negb (lsgn a) || lsgn b) && match t with Some r => type_assign (ty_logic a) r | None => false end) (ty_logic a))
    (four_assigned a b r).
Proof.
  intros Va Vr R. unfold four_assigned. rewrite <- plain_ty.
  destruct (ordinary (ty_logic a) && (negb (lsgn a) || lsgn b)); cbn [negb andb]; [|cbn [check agree]; leaf].
  destruct t as [t|]; cbn [agree] in R.
  - destruct R as [R1 R2]. destruct r as [r| | | |]; cbn [bind]; [|destruct (type_assign _ _); cbn; first [split; discriminate|intros x; discriminate]..|congruence].
    rewrite <- (R2 r eq_refl). apply assign_typed4; [exact Va|apply Vr; reflexivity].
  - cbn [check agree]. intros x. destruct r as [r| | | |]; cbn [bind]; try discriminate. exfalso. exact (R r eq_refl).
Qed.

Lemma put_typed4 o a b : lvec a -> lvec b -> agree ty_logic (check (type_put4 o (ty_logic a) (ty_logic b)) (ty_logic a)) (four_put o a b).
Proof.
  intros Va Vb.
  assert (K : forall o, agree ty_logic (check (ordinary (ty_logic a) && (negb (lsgn a) || lsgn b) &&
      match type_bin4 o (ty_logic a) (ty_logic b) with Some r => type_assign (ty_logic a) r | None => false end) (ty_logic a)) (four_assigned a b (four_bin o a b))).
  { intros p. apply assigned_typed4; [exact Va| |apply bin_typed4; assumption]. intros x E. rewrite <- bin_four in E by assumption. apply (bin_four_vec p a b x Va Vb E). }
  destruct o; cbn [type_put4 four_put]; try (cbn [check agree]; leaf); apply K.
Qed.
Lemma step_typed4 d a : agree ty_logic (check (type_step4 (ty_logic a)) (ty_logic a)) (four_step d a).
Proof.
  unfold four_step, type_step4. rewrite lw_ty, plain_ty. destruct ((lw a =? 1) || plain_range a) eqn:Q; cbn [negb check agree]; [|leaf].
  pose proof (step_typed d (l_val a)) as H. replace (type_step (ty_bit (l_val a))) with true in H.
  - apply (agree_unless _ _ (Some (ty_logic a))); [apply agree_certain; exact H| |discriminate]. intros u E. injection E as <-. reflexivity.
  - symmetry. unfold type_step. change (ty_bit (l_val a)) with (ty_logic a). rewrite lw_ty, plain_ty. destruct (lw a =? 1); [reflexivity|]. cbn [orb] in *. rewrite Q. apply orb_true_r.
Qed.
Lemma put_at_typed4 l i c : well_typed ty_logic (ty_logic l) (four_put_at l i c).
Proof.
  unfold four_put_at. pose proof (with_position_typed (l_val l) i (high c)) as [H1 H2]. pose proof (with_position_typed (l_xz l) i (unknown c)) as [K1 K2].
  destruct (any_with_position (l_val l) _ _) as [x| | | |]; cbn [bind]; try (split; discriminate); [|congruence].
  destruct (any_with_position (l_xz l) _ _) as [y| | | |]; cbn [bind]; try (split; discriminate); [|congruence]. apply wt_ok. apply H2. reflexivity.
Qed.

Lemma declared4_ok G H st : declared4 G H st -> state4_ok st.
Proof. intros [D1 D2]. split; intros k; [apply D1|apply D2]. Qed.
Lemma ex_typed4 G H st e : declared4 G H st -> ex4_ok e -> agree ty_logic (type_ex4 G H e) (four_ex st e).
Proof.
  intros D. pose proof (declared4_ok _ _ _ D) as St. destruct D as [D2 D4].
  assert (Lv : forall e a, ex4_ok e -> four_ex st e = Ok a -> lvec a).
  { intros x a O E. destruct (ex_four st x St O) as [F N]. apply N. rewrite F. exact E. }
  induction e as [k|msb lsb s z|msb lsb s|msb lsb s e|o e IHe|o e IHe f IHf|e IHe f]; cbn [type_ex4 four_ex ex4_ok]; intros O.
  - apply wt_ok. apply D4.
  - apply wt_ok. reflexivity.
  - apply wt_ok. reflexivity.
  - destruct O as [_ O]. apply (agree_bind ty_bit ty_logic (type_ex G e) (fun t => check ((t_msb t =? msb) && (t_lsb t =? lsb) && (t_sgn t || negb s)) (mkTy msb lsb s))).
    + apply ex_typed; assumption.
    + intros b _. cbn [ty_bit t_msb t_lsb t_sgn]. unfold four_of_bit. destruct (_ && _); cbn [check agree]; leaf.
  - destruct O as [O1 O2]. apply (agree_bind ty_logic ty_logic (type_ex4 G H e) (type_un4 o)); [apply IHe; exact O2|]. intros a E. apply un_typed4; [exact O1|apply (Lv e a O2 E)].
  - destruct O as [O1 O2]. apply (agree_bind ty_logic ty_logic (type_ex4 G H e) (fun t => match type_ex4 G H f with Some u => type_bin4 o t u | None => None end)); [apply IHe; exact O1|].
    intros a E. apply (agree_bind ty_logic ty_logic (type_ex4 G H f) (type_bin4 o (ty_logic a))); [apply IHf; exact O2|]. intros b F. apply bin_typed4; [apply (Lv e a O1 E)|apply (Lv f b O2 F)].
  - destruct O as [O1 O2]. apply (agree_bind ty_logic ty_logic (type_ex4 G H e) (fun t => match type_ex G f with Some u => check (tw t + tw u <? 64) (range (tw t + tw u) (t_sgn t)) | None => None end)); [apply IHe; exact O1|].
    intros a E. apply (agree_bind ty_bit ty_logic (type_ex G f) (fun u => check (tw (ty_logic a) + tw u <? 64) (range (tw (ty_logic a) + tw u) (t_sgn (ty_logic a))))); [apply ex_typed; assumption|].
    intros b F. apply join_bit_typed4.
Qed.
Lemma match_typed4 a b : lvec a -> lvec b -> allowed (type_equal (ty_logic a) (ty_logic b)) (four_match a b).
Proof.
  intros Va Vb. unfold four_match. pose proof (equal_typed (l_val a) (l_val b)) as Hv. pose proof (equal_typed (l_xz a) (l_xz b)) as Hm. rewrite !mask_typed in Hm by assumption.
  assert (E : type_equal (mask_ty (ty_logic a)) (mask_ty (ty_logic b)) = true) by (unfold type_equal; cbn [mask_ty t_sgn andb negb]; rewrite orb_true_r; reflexivity).
  rewrite E in Hm. cbn [allowed] in Hm. change (ty_bit (l_val a)) with (ty_logic a) in Hv. change (ty_bit (l_val b)) with (ty_logic b) in Hv.
  destruct (type_equal _ _); cbn [allowed] in *.
  - destruct (any_equal (l_val a) _); cbn [bind]; try discriminate; [|congruence]. destruct (any_equal (l_xz a) _); cbn [bind]; try discriminate. congruence.
  - intros x. destruct (any_equal (l_val a) _) as [y| | | |]; cbn [bind]; try discriminate. exfalso. exact (Hv y eq_refl).
Qed.
Lemma test_typed4 G H st t : declared4 G H st -> test4_ok t -> allowed (type_test4 G H t) (four_test st t).
Proof.
  intros D. pose proof (declared4_ok _ _ _ D) as St.
  assert (Lv : forall e a, ex4_ok e -> four_ex st e = Ok a -> lvec a).
  { intros x a O E. destruct (ex_four st x St O) as [F N]. apply N. rewrite F. exact E. }
  assert (M : forall e f, ex4_ok e -> ex4_ok f -> allowed (match type_ex4 G H e, type_ex4 G H f with Some t, Some u => type_equal t u | _, _ => false end)
      (let! a := four_ex st e in let! b := four_ex st f in four_match a b)).
  { intros e f O1 O2. apply (allowed_bind ty_logic (type_ex4 G H e) (fun t => match type_ex4 G H f with Some u => type_equal t u | None => false end)); [apply ex_typed4; assumption|].
    intros a E. apply (allowed_bind ty_logic (type_ex4 G H f) (type_equal (ty_logic a))); [apply ex_typed4; assumption|]. intros b F. apply match_typed4; [apply (Lv e a O1 E)|apply (Lv f b O2 F)]. }
  destruct t as [e|e f|e f|t]; cbn [type_test4 four_test test4_ok]; intros O.
  - apply (allowed_bind ty_logic (type_ex4 G H e) (fun _ => true)); [apply ex_typed4; assumption|]. discriminate.
  - apply M; apply O.
  - destruct O as [O1 O2]. specialize (M e f O1 O2). destruct (match type_ex4 G H e with Some _ => _ | None => _ end); cbn [allowed] in *.
    + destruct (four_ex st e) as [a| | | |]; cbn [bind] in *; try discriminate; [|congruence]. destruct (four_ex st f) as [b| | | |]; cbn [bind] in *; try discriminate; [|congruence].
      destruct (four_match a b); cbn; congruence.
    + intros x. destruct (four_ex st e) as [a| | | |]; cbn [bind] in *; try discriminate. destruct (four_ex st f) as [b| | | |]; cbn [bind] in *; try discriminate.
      destruct (four_match a b) as [y| | | |]; cbn; try discriminate. exfalso. exact (M y eq_refl).
  - apply test_typed; [apply D|exact O].
Qed.

Definition kept4 (G H : nat -> ty) (o : outcome state4) : Prop :=
  o <> IllFormed /\ forall st, o = Ok st -> (forall k, ty_bit (two st k) = G k) /\ forall k, ty_logic (four st k) = H k.
Lemma direct4 G H st k (o : outcome logic) : declared4 G H st -> well_typed ty_logic (H k) o -> kept4 G H (let! x := o in Ok (upd4 st k x)).
Proof.
  intros [D1 D2] [F1 F2]. destruct o as [x| | | |]; cbn [bind]; try (split; discriminate); [|congruence]. split; [discriminate|].
  intros st' E. injection E as <-. split; [intros j; apply D1|]. intros j. unfold upd4. cbn [four]. destruct (Nat.eqb j k) eqn:Q; [|apply D2].
  apply Nat.eqb_eq in Q. subst j. apply F2. reflexivity.
Qed.
Lemma bind4 G H st k e (f : logic -> outcome logic) ok : declared4 G H st -> ex4_ok e ->
  match type_ex4 G H e with Some t => ok t | None => false end = true -> (forall a, lvec a -> ok (ty_logic a) = true -> well_typed ty_logic (H k) (f a)) ->
  kept4 G H (let! a := four_ex st e in let! x := f a in Ok (upd4 st k x)).
Proof.
  intros D O T F. pose proof (ex_typed4 G H st e D O) as W. destruct (type_ex4 G H e) as [t|]; [|discriminate]. destruct W as [E1 E2].
  assert (Lv : forall a, four_ex st e = Ok a -> lvec a).
  { intros a E. destruct (ex_four st e (declared4_ok _ _ _ D) O) as [P N]. apply N. rewrite P. exact E. }
  destruct (four_ex st e) as [a| | | |]; cbn [bind]; try (split; discriminate); [|congruence].
  apply direct4; [exact D|]. apply F; [apply Lv; reflexivity|]. rewrite (E2 a eq_refl). exact T.
Qed.
Lemma run_typed4 G H fuel : forall st c, declared4 G H st -> stmt4_ok c -> type_stmt4 G H c = true -> kept4 G H (four_run fuel st c).
Proof.
  induction fuel as [|fuel IH]; [split; discriminate|]. intros st c D O T. pose proof (declared4_ok _ _ _ D) as St.
  assert (D4 : forall k, ty_logic (four st k) = H k) by (intros; apply D). assert (L4 : forall k, lvec (four st k)) by (intros; apply D).
  assert (Next : forall c d, stmt4_ok c -> type_stmt4 G H c = true -> stmt4_ok d -> type_stmt4 G H d = true ->
    kept4 G H (let! st' := four_run fuel st c in four_run fuel st' d)).
  { intros c' d' Oc Tc Od Td. pose proof (IH st c' D Oc Tc) as [R1 R2]. destruct (four_run fuel st c') as [st'| | | |] eqn:E; cbn [bind]; try (split; discriminate); [|congruence].
    destruct (R2 st' eq_refl) as [Q1 Q2]. assert (St' : state4_ok st') by (apply (programs_four_types fuel st c' st' St Oc); rewrite programs_four by assumption; exact E).
    apply IH; [|exact Od|exact Td]. split; intros k; (split; [apply St'|auto]). }
  destruct c as [|k e|k o e|k|k|k i s|k i e|c|c d|t c d|t c]; cbn [four_run type_stmt4 stmt4_ok] in *.
  - split; [discriminate|]. intros st' E. injection E as <-. split; intros k; [apply D|apply D4].
  - apply (bind4 G H st k e _ (type_assign (H k)) D O T). intros a La E. pose proof (assign_typed4 (four st k) a (L4 k) La) as W. rewrite D4, E in W. exact W.
  - apply (bind4 G H st k e _ (type_put4 o (H k)) D O T). intros a La E. pose proof (put_typed4 o (four st k) a (L4 k) La) as W. rewrite D4, E in W. exact W.
  - apply direct4; [exact D|]. pose proof (step_typed4 1 (four st k)) as W. rewrite D4, T in W. exact W.
  - apply direct4; [exact D|]. pose proof (step_typed4 (-1) (four st k)) as W. rewrite D4, T in W. exact W.
  - apply direct4; [exact D|]. rewrite <- D4. apply put_at_typed4.
  - destruct O as [O1 O2]. pose proof (ex_typed4 G H st e D O2) as W. destruct (type_ex4 G H e) as [t|]; [|discriminate]. destruct W as [E1 E2].
    destruct (four_ex st e) as [a| | | |]; cbn [bind]; try (split; discriminate); [|congruence].
    replace (one_bit a) with true; [apply direct4; [exact D|]; rewrite <- D4; apply put_at_typed4|]. rewrite <- (E2 a eq_refl) in T. symmetry. exact T.
  - pose proof (run_typed G fuel (two st) c (proj1 D) O T) as [R1 R2]. destruct (any_run fuel (two st) c) as [s2| | | |]; cbn [bind]; try (split; discriminate); [|congruence].
    split; [discriminate|]. intros st' E. injection E as <-. split; [exact (R2 s2 eq_refl)|exact D4].
  - apply andb_true_iff in T. apply Next; tauto.
  - apply andb_true_iff in T. destruct T as [T T3]. apply andb_true_iff in T. destruct T as [T1 T2]. destruct O as (O1 & O2 & O3).
    pose proof (test_typed4 G H st t D O1) as W. rewrite T1 in W. cbn [allowed] in W. destruct (four_test st t) as [[]| | | |]; cbn [bind]; try (split; discriminate); [..|congruence]; apply IH; assumption.
  - apply andb_true_iff in T. destruct T as [T1 T2]. destruct O as (O1 & O2).
    pose proof (test_typed4 G H st t D O1) as W. rewrite T1 in W. cbn [allowed] in W. destruct (four_test st t) as [[]| | | |]; cbn [bind]; try (split; discriminate); [..|congruence].
    + apply Next; [exact O2|exact T2|split; assumption|]. cbn [type_stmt4]. rewrite T1, T2. reflexivity.
    + split; [discriminate|]. intros st' E. injection E as <-. split; intros k; [apply D|apply D4].
Qed.

(** * about the library *)
Lemma declared_vec G st : declared2 G st -> forall k, vec (st k). Proof. intros D k. apply D. Qed.
Theorem expressions_compile G st e t : declared2 G st -> wide_ex_ok e -> type_ex G e = Some t -> well_typed ty_bit t (lib_ex st e).
Proof.
  intros D O T. destruct (ex_any st e (declared_vec G st D) O) as [-> _]. pose proof (ex_typed G st e D O) as W. rewrite T in W. exact W.
Qed.
Theorem expressions_rejected G st e : declared2 G st -> wide_ex_ok e -> type_ex G e = None -> rejected (lib_ex st e).
Proof.
  intros D O T. destruct (ex_any st e (declared_vec G st D) O) as [-> _]. pose proof (ex_typed G st e D O) as W. rewrite T in W. exact W.
Qed.
Theorem programs_compile G fuel st c : declared2 G st -> wide_stmt_ok c -> type_stmt G c = true ->
  lib_run fuel st c <> IllFormed /\ forall st', lib_run fuel st c = Ok st' -> declared2 G st'.
Proof.
  intros D O T. destruct (run_typed G fuel st c D O T) as [R1 R2]. rewrite programs_any by (try apply (declared_vec G st D); exact O). split; [exact R1|].
  intros st' E k. split; [|apply R2; exact E]. apply (programs_any_types fuel st c st' (declared_vec G st D) O). rewrite programs_any by (try apply (declared_vec G st D); exact O). exact E.
Qed.
Theorem expressions_compile4 G H st e t : declared4 G H st -> ex4_ok e -> type_ex4 G H e = Some t -> well_typed ty_logic t (lib4_ex st e).
Proof.
  intros D O T. destruct (ex_four st e (declared4_ok G H st D) O) as [-> _]. pose proof (ex_typed4 G H st e D O) as W. rewrite T in W. exact W.
Qed.
Theorem expressions_rejected4 G H st e : declared4 G H st -> ex4_ok e -> type_ex4 G H e = None -> rejected (lib4_ex st e).
Proof.
  intros D O T. destruct (ex_four st e (declared4_ok G H st D) O) as [-> _]. pose proof (ex_typed4 G H st e D O) as W. rewrite T in W. exact W.
Qed.
Theorem programs_compile4 G H fuel st c : declared4 G H st -> stmt4_ok c -> type_stmt4 G H c = true ->
  lib4_run fuel st c <> IllFormed /\ forall st', lib4_run fuel st c = Ok st' -> declared4 G H st'.
Proof.
  intros D O T. pose proof (declared4_ok G H st D) as St. destruct (run_typed4 G H fuel st c D O T) as [R1 R2]. rewrite programs_four by assumption. split; [exact R1|].
  intros st' E. destruct (R2 st' E) as [Q1 Q2]. rewrite <- programs_four in E by assumption. destruct (programs_four_types fuel st c st' St O E) as [P1 P2].
  split; intros k; split; auto.
Qed.
Theorem tests_compile G st t : declared2 G st -> wide_test_ok t -> if type_test G t then lib_test st t <> IllFormed else rejected (lib_test st t).
Proof. intros D O. rewrite test_any by (try apply (declared_vec G st D); exact O). exact (test_typed G st t D O). Qed.
Theorem tests_compile4 G H st t : declared4 G H st -> test4_ok t -> if type_test4 G H t then lib4_test st t <> IllFormed else rejected (lib4_test st t).
Proof. intros D O. rewrite test_four by (try apply (declared4_ok G H st D); exact O). exact (test_typed4 G H st t D O). Qed.
