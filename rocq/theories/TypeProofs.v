(** What the type checker of SpecType.v says of the reference machines, and through them of the library. *)
From Coq Require Import ZArith List Bool Lia.
From Verif Require Import Cpp Bit Logic Spec SpecExact SpecMachine SpecWide SpecFour MachineProg WideProg FourProg WideProofs5 FourProofs4 SpecType.
From Verif Require SpecExact4.
Import ListNotations.
Open Scope Z_scope.
Local Ltac Zify.zify_post_hook ::= idtac.

Definition agree {A} (type : A -> ty) (t : option ty) (o : outcome A) : Prop :=
  match t with Some t => well_typed type t o | None => rejected o end.
(** tests *)
Definition allowed {A} (ok : bool) (o : outcome A) : Prop := if ok then o <> IllFormed else rejected o.

Lemma wt_ok {A} (type : A -> ty) t a : type a = t -> well_typed type t (Ok a).
Proof. intros E. split; [discriminate|]. intros b F. injection F as <-. exact E. Qed.
Lemma wt_ub {A} (type : A -> ty) t : well_typed type t UB.
Proof. split; discriminate. Qed.
Lemma wt_fuel {A} (type : A -> ty) t : well_typed type t Fuel.
Proof. split; discriminate. Qed.
Lemma rej_ill {A} : rejected (@IllFormed A).
Proof. intros a; discriminate. Qed.
Lemma rej_ub {A} : rejected (@UB A).
Proof. intros a; discriminate. Qed.
Lemma not_ill {A} (o : outcome A) : match o with IllFormed => False | _ => True end -> o <> IllFormed.
Proof. destruct o; try discriminate. contradiction. Qed.

Lemma small_narrow a : small a = narrow (ty_bit a). Proof. reflexivity. Qed.
Lemma tw_bit a : tw (ty_bit a) = bw a. Proof. reflexivity. Qed.

Ltac leaf := first [ apply wt_ub | apply wt_fuel | apply rej_ill | apply rej_ub | (apply wt_ok; reflexivity) | discriminate | exact I ].

Lemma slice_typed a i j : agree ty_bit (type_un (Slice i j) (ty_bit a)) (any_slice a i j).
Proof.
  cbn [type_un]. unfold check, sliceable, any_slice. rewrite <- small_narrow, tw_bit. cbn [ty_bit t_lsb]. destruct (small a).
  - unfold slice_fixed. cbn zeta. rewrite orb_true_l, andb_true_r. destruct (_ && _); cbn [negb agree]; [|leaf].
    destruct (_ && _); [leaf|]. destruct (negb _); leaf.
  - cbn [orb]. destruct (Z.max i j <? bw a); cbn [andb negb orb agree]; [|leaf].
    destruct (blsb a <=? j); cbn [andb negb orb agree]; [|leaf]. destruct (0 <=? Z.min i j); cbn [andb negb orb agree]; [|leaf].
    cbn zeta. destruct (_ =? 65); cbn [negb agree]; leaf.
Qed.
Lemma resize_typed a m : 1 <= m -> agree ty_bit (type_un (Resize m) (ty_bit a)) (any_resize a m).
Proof.
  intros M. cbn [type_un]. unfold any_resize, resized. rewrite tw_bit. change (t_sgn (ty_bit a)) with (bsgn a).
  replace (ordinary (ty_bit a)) with ((blsb a =? 0) && (0 <=? bmsb a)) by reflexivity.
  pose proof (slice_typed a (m - 1) 0) as W. cbn [type_un] in W. unfold check in *.
  assert (K : forall o, (small a = true -> o = slice_fixed a (m - 1) 0) -> (small a = false -> o = any_slice a (m - 1) 0) -> bw a <? m = false ->
    agree ty_bit (if negb (bsgn a) && sliceable (ty_bit a) (m - 1) 0 then Some (range m (bsgn a)) else None)
      match o with Ok r => if bsgn a then IllFormed else Ok r | UB => UB | Exn => Exn | Fuel => Fuel | IllFormed => IllFormed end).
  { intros o O1 O2 B. assert (E : o = any_slice a (m - 1) 0) by (unfold any_slice in *; destruct (small a); auto). rewrite E. clear O1 O2.
    replace (Z.abs (m - 1 - 0) + 1) with m in W by lia.
    destruct (bsgn a); cbn [negb andb].
    - intros b. destruct (any_slice a (m - 1) 0); discriminate.
    - destruct (sliceable _ _ _); cbn [agree] in *; [|intros b; specialize (W b); destruct (any_slice a (m - 1) 0); try discriminate; exact W].
      destruct W as [W1 W2]. split; [destruct (any_slice a (m - 1) 0); try discriminate; exact W1|]. intros b E'. apply W2. destruct (any_slice a (m - 1) 0); congruence. }
  destruct (small a && (m <=? 64)) eqn:Q.
  - destruct (bw a <? m) eqn:B; [cbn [agree]; leaf|]. destruct (m =? bw a); [destruct (_ || _); cbn [agree]; leaf|].
    apply (K (slice_fixed a (m - 1) 0)); [reflexivity|intros F; rewrite F in Q; discriminate|reflexivity].
  - destruct (bw a <? m) eqn:B; [cbn [agree]; leaf|]. destruct (m =? bw a); [destruct (_ || _); cbn [agree]; leaf|].
    apply (K (any_slice a (m - 1) 0)); [intros F; unfold any_slice; rewrite F; reflexivity|reflexivity|reflexivity].
Qed.

Lemma un_typed o a : wide_un_ok o -> agree ty_bit (type_un o (ty_bit a)) (any_un o a).
Proof.
  intros O. destruct o; cbn [type_un any_un wide_un_ok] in *; unfold check; rewrite <- ?small_narrow, ?tw_bit.
  - unfold any_minus, negated. destruct (small a); cbn [agree]; [|leaf]. destruct (_ && _); leaf.
  - cbn [agree]. unfold any_inverse, inverse. destruct (small a); leaf.
  - cbn [agree]. unfold any_two_complement, two_complement. destruct (small a); [|leaf]. destruct (_ && _); leaf.
  - leaf.
  - leaf.
  - leaf.
  - apply (resize_typed a m). lia.
  - apply (slice_typed a i j).
  - unfold any_slice_dynamic, slice_dynamic. destruct (small a); cbn [negb orb].
    + rewrite Z.leb_antisym. destruct (64 <? m); cbn [negb agree]; [leaf|]. cbn zeta. destruct (negb _); leaf.
    + cbn [agree]. cbn zeta. destruct (_ =? _); leaf.
Qed.

Lemma pairing_pairs a b : pairing (ty_bit a) (ty_bit b) = pairs_up a b.
Proof. unfold pairing, pairs_up. rewrite !tw_bit. cbn zeta. destruct (_ =? _); [reflexivity|]. destruct (_ <? _); reflexivity. Qed.
Lemma computed_typed op u a b : agree ty_bit (check (pairing (ty_bit a) (ty_bit b)) (joint (ty_bit a) (ty_bit b))) (computed op u a b).
Proof. rewrite pairing_pairs. unfold check, computed. cbn zeta. destruct (pairs_up a b); cbn [negb agree]; [|leaf]. destruct (_ || _); leaf. Qed.
Lemma combined_typed f a b : (forall x y, f x y <> IllFormed) ->
  agree ty_bit (check (pairing (ty_bit a) (ty_bit b)) (joint (ty_bit a) (ty_bit b))) (combined f a b).
Proof.
  intros F. rewrite pairing_pairs. unfold check, combined. cbn zeta. destruct (pairs_up a b); cbn [negb agree]; [|leaf].
  pose proof (F (widened a (wider a b)) (widened b (wider a b))) as G. destruct (f _ _); first [leaf|congruence|split; discriminate].
Qed.
Lemma combined_ill f a b : (forall x y, f x y = IllFormed) -> rejected (combined f a b).
Proof. intros F c. unfold combined. cbn zeta. destruct (negb _); [discriminate|]. rewrite F. discriminate. Qed.
Lemma divided_compiles n x y : divided n x y <> IllFormed.
Proof. unfold divided. repeat (match goal with |- (if ?c then _ else _) <> _ => destruct c end; try discriminate). Qed.

Lemma shift_typed nar f a b : (forall r, nar a b = Ok r -> ty_bit r = range (bw a) (bsgn a && bsgn b)) -> nar a b <> IllFormed ->
  agree ty_bit (check (negb (small a) || small b) (range (bw a) (bsgn a && bsgn b))) (any_shift nar f a b).
Proof.
  intros F G. unfold any_shift, check. destruct (small a); cbn [negb orb agree]; [|leaf]. destruct (small b); cbn [agree]; [|leaf].
  split; [exact G|exact F].
Qed.
Ltac narrow_shift := intros; match goal with H : context [if ?c then _ else _] |- _ => destruct c end; try discriminate.

Lemma bin_typed o a b : agree ty_bit (type_bin o (ty_bit a) (ty_bit b)) (any_bin o a b).
Proof.
  assert (Sh : forall (nar : bit -> bit -> outcome bit) f, (nar a b = UB \/ exists z, nar a b = Ok (vector (bw a) (both_signed a b) z)) ->
    agree ty_bit (check (negb (small a) || small b) (range (bw a) (bsgn a && bsgn b))) (any_shift nar f a b)).
  { intros nar f [E | [z E]]; apply shift_typed; rewrite E; try discriminate. intros r F. injection F as <-. reflexivity. }
  destruct o; cbn [type_bin any_bin].
  - unfold any_sum. destruct (small a && small b); [apply computed_typed|apply combined_typed; discriminate].
  - unfold any_difference. destruct (small a && small b); [apply computed_typed|apply combined_typed; discriminate].
  - unfold any_product. cbn zeta. destruct (small a && small b); [apply computed_typed|apply combined_typed].
    intros x y. repeat (match goal with |- (if ?c then _ else _) <> _ => destruct c end; try discriminate).
  - unfold any_quotient. rewrite <- !small_narrow. change (t_sgn (ty_bit a)) with (bsgn a). destruct (small a && small b); cbn [orb].
    + rewrite andb_true_r. apply computed_typed.
    + destruct (bsgn a); cbn [negb].
      * rewrite andb_false_r. cbn [check agree]. apply combined_ill. reflexivity.
      * rewrite andb_true_r. apply combined_typed. intros x y. pose proof (divided_compiles (wider a b) x y). destruct (divided _ _ _); cbn; congruence.
  - unfold any_remainder. rewrite <- !small_narrow. change (t_sgn (ty_bit a)) with (bsgn a). destruct (small a && small b); cbn [orb].
    + rewrite andb_true_r, pairing_pairs. unfold check, remainder. cbn zeta. destruct (pairs_up a b); cbn [negb agree]; [|leaf].
      match goal with |- well_typed _ _ (if ?c then _ else _) => destruct c end; leaf.
    + destruct (bsgn a); cbn [negb].
      * rewrite andb_false_r. cbn [check agree]. apply combined_ill. reflexivity.
      * rewrite andb_true_r. apply combined_typed. intros x y. pose proof (divided_compiles (wider a b) x y). destruct (divided _ _ _); cbn; congruence.
  - unfold any_bitwise. destruct (small a && small b); [|apply combined_typed; discriminate].
    rewrite pairing_pairs. unfold check, bitwise. cbn zeta. destruct (pairs_up a b); cbn [negb agree]; leaf.
  - unfold any_bitwise. destruct (small a && small b); [|apply combined_typed; discriminate].
    rewrite pairing_pairs. unfold check, bitwise. cbn zeta. destruct (pairs_up a b); cbn [negb agree]; leaf.
  - unfold any_bitwise. destruct (small a && small b); [|apply combined_typed; discriminate].
    rewrite pairing_pairs. unfold check, bitwise. cbn zeta. destruct (pairs_up a b); cbn [negb agree]; leaf.
  - apply Sh. unfold shifted_left. destruct (shiftable a b); [right; eexists; reflexivity|left; reflexivity].
  - apply Sh. unfold shifted_right. cbn zeta. destruct (bw a =? 1).
    + match goal with |- (if ?c then _ else _) = _ \/ _ => destruct c end; [right; eexists; reflexivity|left; reflexivity].
    + match goal with |- (if ?c then _ else _) = _ \/ _ => destruct c end; [right; eexists; reflexivity|left; reflexivity].
  - apply Sh. unfold shifted_arith. destruct (shiftable a b); [right; eexists; reflexivity|left; reflexivity].
  - unfold joined, check. rewrite !tw_bit. cbn zeta. rewrite Z.ltb_antisym. destruct (64 <=? _); cbn [negb agree]; [leaf|]. destruct (_ <=? _); leaf.
Qed.

Lemma assign_typed a b : agree ty_bit (check (type_assign (ty_bit a) (ty_bit b)) (ty_bit a)) (any_assign a b).
Proof.
  unfold type_assign, any_assign, check. rewrite <- !small_narrow, !tw_bit. destruct (small a); cbn [negb andb orb].
  - rewrite orb_false_r. destruct (small b); cbn [agree]; leaf.
  - destruct (bw b =? bw a); cbn [agree]; leaf.
Qed.
Lemma assigned_typed c a b r t : agree ty_bit t r ->
  agree ty_bit (check (ordinary (ty_bit a) && (negb (bsgn a) || bsgn b) && match t with Some r => type_assign (ty_bit a) r | None => false end) (ty_bit a))
    (any_assigned c a b r).
Proof.
  intros R. unfold any_assigned. replace (updatable a b) with (ordinary (ty_bit a) && (negb (bsgn a) || bsgn b)) by reflexivity.
  destruct (ordinary (ty_bit a) && (negb (bsgn a) || bsgn b)); cbn [negb andb]; [|cbn [check agree]; leaf].
  destruct t as [t|]; cbn [agree] in R.
  - destruct R as [R1 R2]. destruct r as [r| | | |]; [|destruct (type_assign _ _); cbn; first [split; discriminate|intros x; discriminate]..|congruence].
    rewrite <- (R2 r eq_refl). pose proof (assign_typed a r) as W. destruct (type_assign _ _); cbn [check agree] in *.
    + destruct W as [W1 W2]. destruct (any_assign a r) as [x| | | |]; try (split; discriminate); [|congruence]. specialize (W2 x eq_refl).
      split; [discriminate|]. intros y E. injection E as <-. destruct c; [reflexivity|exact W2].
    + intros x. destruct (any_assign a r) as [y| | | |]; try discriminate. exfalso. exact (W y eq_refl).
  - cbn [check agree]. intros x. destruct r as [r| | | |]; try discriminate. exfalso. exact (R r eq_refl).
Qed.

Lemma put_typed o a b : agree ty_bit (check (type_put o (ty_bit a) (ty_bit b)) (ty_bit a)) (any_put o a b).
Proof.
  destruct o; cbn [type_put any_put]; try (cbn [check agree]; leaf); apply assigned_typed; apply bin_typed.
Qed.
Lemma equal_typed a b : allowed (type_equal (ty_bit a) (ty_bit b)) (any_equal a b).
Proof.
  unfold type_equal, any_equal. rewrite <- !small_narrow, !tw_bit. cbn [ty_bit t_sgn]. unfold both_signed.
  destruct (small a); cbn [andb orb allowed]; [destruct (small b); discriminate|]. destruct (small b); cbn [orb allowed]; [discriminate|].
  destruct (bsgn a && bsgn b); cbn [negb orb allowed]; [|discriminate]. destruct (bw a <? bw b); cbn [allowed]; [discriminate|apply rej_ill].
Qed.
Lemma greater_compiles a b : wide_greater a b <> IllFormed.
Proof. unfold wide_greater. repeat (match goal with |- (if ?c then _ else _) <> _ => destruct c end; try discriminate). Qed.
Lemma greater_equal_typed a b : allowed (type_equal (ty_bit a) (ty_bit b)) (wide_greater_equal a b).
Proof.
  pose proof (equal_typed a b) as E. pose proof (greater_compiles a b) as G. unfold wide_greater_equal.
  destruct (type_equal _ _); cbn [allowed] in *.
  - destruct (any_equal a b); try discriminate; [|congruence]. destruct (wide_greater a b); try discriminate. congruence.
  - intros x. destruct (any_equal a b) as [y| | | |]; try discriminate. exfalso. exact (E y eq_refl).
Qed.
Lemma rel_typed r a b : allowed (type_rel r (ty_bit a) (ty_bit b)) (any_rel r a b).
Proof.
  destruct r; cbn [type_rel any_rel].
  - apply equal_typed.
  - pose proof (equal_typed a b) as E. destruct (type_equal _ _); cbn [allowed] in *; [destruct (any_equal a b); cbn; congruence|].
    intros x. destruct (any_equal a b) as [y| | | |]; try discriminate. exfalso. exact (E y eq_refl).
  - unfold any_less, any_order, type_order. rewrite <- !small_narrow. destruct (small a); cbn [orb allowed]; [destruct (small b); discriminate|].
    destruct (small b); cbn [negb allowed]; [apply rej_ill|apply greater_compiles].
  - unfold any_less_equal, any_order, type_order. rewrite <- !small_narrow. destruct (small a); cbn [orb andb allowed]; [destruct (small b); discriminate|].
    destruct (small b); cbn [negb andb allowed]; [apply rej_ill|apply greater_equal_typed].
  - unfold any_greater, any_order, type_order. rewrite <- !small_narrow. destruct (small a); cbn [orb allowed]; [destruct (small b); discriminate|].
    destruct (small b); cbn [negb allowed]; [apply rej_ill|apply greater_compiles].
  - unfold any_greater_equal, any_order, type_order. rewrite <- !small_narrow. destruct (small a); cbn [orb andb allowed]; [destruct (small b); discriminate|].
    destruct (small b); cbn [negb andb allowed]; [apply rej_ill|apply greater_equal_typed].
Qed.
Lemma step_typed d a : agree ty_bit (check (type_step (ty_bit a)) (ty_bit a)) (any_step d a).
Proof.
  unfold any_step, stepped, type_step, check. rewrite tw_bit. cbn [ty_bit t_sgn]. unfold ordinary. cbn [t_msb t_lsb]. cbn zeta. destruct (small a) eqn:Q.
  - destruct (_ || _); cbn [negb agree]; leaf.
  - replace (bw a =? 1) with false by (symmetry; unfold small in Q; lia). cbn [orb]. destruct (_ || _); cbn [agree]; leaf.
Qed.
Lemma with_position_typed a i x : well_typed ty_bit (ty_bit a) (any_with_position a i x).
Proof.
  unfold any_with_position, with_position. destruct (small a); [|apply wt_ok; reflexivity]. cbn zeta. destruct (_ && _); leaf.
Qed.
Lemma position_typed a i : any_position a i <> IllFormed.
Proof. unfold any_position, position. destruct (small a); [|discriminate]. cbn zeta. destruct (_ && _); discriminate. Qed.

Lemma agree_ext {A} (type : A -> ty) t u o : t = u -> agree type t o -> agree type u o.
Proof. intros ->. exact (fun x => x). Qed.
Lemma agree_bind {A B} (ta : A -> ty) (tb : B -> ty) (t : option ty) (f : ty -> option ty) (o : outcome A) (k : A -> outcome B) :
  agree ta t o -> (forall a, o = Ok a -> agree tb (f (ta a)) (k a)) -> agree tb (match t with Some t => f t | None => None end) (bind o k).
Proof.
  intros H K. destruct t as [t|]; cbn [agree] in *.
  - destruct H as [H1 H2]. destruct o as [a| | | |]; cbn [bind]; [|..|congruence].
    + rewrite <- (H2 a eq_refl). apply K. reflexivity.
    + destruct (f t); cbn [agree]; [split; discriminate|intros x; discriminate].
    + destruct (f t); cbn [agree]; [split; discriminate|intros x; discriminate].
    + destruct (f t); cbn [agree]; [split; discriminate|intros x; discriminate].
  - intros x. destruct o as [a| | | |]; cbn [bind]; try discriminate. exfalso. exact (H a eq_refl).
Qed.
Lemma allowed_bind {A B} (ta : A -> ty) (t : option ty) (f : ty -> bool) (o : outcome A) (k : A -> outcome B) :
  agree ta t o -> (forall a, o = Ok a -> allowed (f (ta a)) (k a)) -> allowed (match t with Some t => f t | None => false end) (bind o k).
Proof.
  intros H K. destruct t as [t|]; cbn [agree] in *.
  - destruct H as [H1 H2]. destruct o as [a| | | |]; cbn [bind]; [|..|congruence].
    + rewrite <- (H2 a eq_refl). apply K. reflexivity.
    + destruct (f t); cbn [allowed]; [discriminate|intros x; discriminate].
    + destruct (f t); cbn [allowed]; [discriminate|intros x; discriminate].
    + destruct (f t); cbn [allowed]; [discriminate|intros x; discriminate].
  - intros x. destruct o as [a| | | |]; cbn [bind]; try discriminate. exfalso. exact (H a eq_refl).
Qed.

Lemma ex_typed G st e : declared2 G st -> wide_ex_ok e -> agree ty_bit (type_ex G e) (any_ex st e).
Proof.
  intros D. induction e as [k|msb lsb s z|o e IHe|o e IHe f IHf]; cbn [type_ex any_ex wide_ex_ok]; intros O.
  - apply wt_ok. apply D.
  - apply wt_ok. reflexivity.
  - destruct O as [O1 O2]. apply (agree_bind ty_bit ty_bit (type_ex G e) (type_un o)); [apply IHe; exact O2|]. intros a _. apply un_typed. exact O1.
  - destruct O as [O1 O2]. apply (agree_bind ty_bit ty_bit (type_ex G e) (fun t => match type_ex G f with Some u => type_bin o t u | None => None end)); [apply IHe; exact O1|].
    intros a _. apply (agree_bind ty_bit ty_bit (type_ex G f) (type_bin o (ty_bit a))); [apply IHf; exact O2|]. intros b _. apply bin_typed.
Qed.
Lemma test_typed G st t : declared2 G st -> wide_test_ok t -> allowed (type_test G t) (any_test st t).
Proof.
  intros D. destruct t as [r e f|e|e i|e]; cbn [type_test any_test wide_test_ok]; intros O.
  - destruct O as [O1 O2].
    apply (allowed_bind ty_bit (type_ex G e) (fun t => match type_ex G f with Some u => type_rel r t u | None => false end)); [apply ex_typed; assumption|]. intros a _.
    apply (allowed_bind ty_bit (type_ex G f) (type_rel r (ty_bit a))); [apply ex_typed; assumption|]. intros b _. apply rel_typed.
  - apply (allowed_bind ty_bit (type_ex G e) (fun _ => true)); [apply ex_typed; assumption|]. discriminate.
  - apply (allowed_bind ty_bit (type_ex G e) (fun _ => true)); [apply ex_typed; assumption|]. intros a _. apply position_typed.
  - apply (allowed_bind ty_bit (type_ex G e) (fun _ => true)); [apply ex_typed; assumption|]. discriminate.
Qed.

(** programs *)
Definition kept2 (G : nat -> ty) (o : outcome state) : Prop := o <> IllFormed /\ forall st, o = Ok st -> forall k, ty_bit (st k) = G k.
Lemma upd_typed G st k x : (forall k, ty_bit (st k) = G k) -> ty_bit x = ty_bit (st k) -> forall j, ty_bit (upd st k x j) = G j.
Proof. intros D E j. unfold upd. destruct (Nat.eqb j k) eqn:Q; [apply Nat.eqb_eq in Q; subst j; rewrite E; apply D|apply D]. Qed.
Lemma kept_bind G st k (e : outcome bit) (f : bit -> outcome bit) t ok : (forall k, ty_bit (st k) = G k) -> agree ty_bit t e ->
  match t with Some t => ok t | None => false end = true -> (forall a, agree ty_bit (check (ok (ty_bit a)) (ty_bit (st k))) (f a)) ->
  kept2 G (let! a := e in let! x := f a in Ok (upd st k x)).
Proof.
  intros D E T F. destruct t as [t|]; [|discriminate]. destruct E as [E1 E2].
  destruct e as [a| | | |]; cbn [bind]; try (split; discriminate); [|congruence]. specialize (F a). rewrite (E2 a eq_refl), T in F. cbn [check agree] in F.
  destruct F as [F1 F2]. destruct (f a) as [x| | | |]; cbn [bind]; try (split; discriminate); [|congruence]. split; [discriminate|].
  intros st' E. injection E as <-. apply upd_typed; [exact D|]. apply F2. reflexivity.
Qed.
Lemma kept_direct G st k (o : outcome bit) : (forall k, ty_bit (st k) = G k) -> well_typed ty_bit (ty_bit (st k)) o -> kept2 G (let! x := o in Ok (upd st k x)).
Proof.
  intros D [F1 F2]. destruct o as [x| | | |]; cbn [bind]; try (split; discriminate); [|congruence]. split; [discriminate|].
  intros st' E. injection E as <-. apply upd_typed; [exact D|]. apply F2. reflexivity.
Qed.
Lemma run_typed G fuel : forall st c, declared2 G st -> wide_stmt_ok c -> type_stmt G c = true -> kept2 G (any_run fuel st c).
Proof.
  induction fuel as [|fuel IH]; [split; discriminate|]. intros st c D O T. assert (D' : forall k, ty_bit (st k) = G k) by (intros; apply D).
  assert (Next : forall c d, wide_stmt_ok c -> type_stmt G c = true -> wide_stmt_ok d -> type_stmt G d = true ->
    kept2 G (let! st' := any_run fuel st c in any_run fuel st' d)).
  { intros c' d' Oc Tc Od Td. pose proof (IH st c' D Oc Tc) as [R1 R2]. destruct (any_run fuel st c') as [st'| | | |] eqn:E; cbn [bind]; try (split; discriminate); [|congruence].
    apply IH; [|exact Od|exact Td]. intros k. split; [|apply R2; reflexivity].
    apply (programs_any_types fuel st c' st'); [intros j; apply D|exact Oc|]. rewrite programs_any; [exact E|intros j; apply D|exact Oc]. }
  destruct c; cbn [any_run type_stmt wide_stmt_ok] in *.
  - split; [discriminate|]. intros st' E. injection E as <-. exact D'.
  - apply (kept_bind G st k (any_ex st e) (any_assign (st k)) (type_ex G e) (type_assign (G k)) D'); [apply ex_typed; assumption|exact T|].
    intros a. rewrite <- D'. apply assign_typed.
  - apply (kept_bind G st k (any_ex st e) (any_put o (st k)) (type_ex G e) (type_put o (G k)) D'); [apply ex_typed; assumption|exact T|].
    intros a. rewrite <- D'. apply put_typed.
  - apply kept_direct; [exact D'|]. pose proof (step_typed 1 (st k)) as W. rewrite D', T in W. rewrite D'. exact W.
  - apply kept_direct; [exact D'|]. pose proof (step_typed (-1) (st k)) as W. rewrite D', T in W. rewrite D'. exact W.
  - apply kept_direct; [exact D'|]. apply with_position_typed.
  - apply andb_true_iff in T. apply Next; tauto.
  - apply andb_true_iff in T. destruct T as [T T3]. apply andb_true_iff in T. destruct T as [T1 T2]. destruct O as (O1 & O2 & O3).
    pose proof (test_typed G st t D O1) as W. rewrite T1 in W. cbn [allowed] in W. destruct (any_test st t) as [[]| | | |]; cbn [bind]; try (split; discriminate); [..|congruence]; apply IH; assumption.
  - apply andb_true_iff in T. destruct T as [T1 T2]. destruct O as (O1 & O2).
    pose proof (test_typed G st t D O1) as W. rewrite T1 in W. cbn [allowed] in W. destruct (any_test st t) as [[]| | | |]; cbn [bind]; try (split; discriminate); [..|congruence].
    + apply Next; [exact O2|exact T2|split; assumption|]. cbn [type_stmt]. rewrite T1, T2. reflexivity.
    + split; [discriminate|]. intros st' E. injection E as <-. exact D'.
Qed.
