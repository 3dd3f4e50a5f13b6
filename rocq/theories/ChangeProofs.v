(** Programs over [logic] do what the same programs over [bit] do, as long as there is no x or z (SpecChange.v). *)
From Coq Require Import ZArith List Bool Lia.
From Verif Require Import Cpp ZBits BigNum Bit Logic Spec SpecExact SpecMachine SpecWide SpecFour SpecIff2 MachineProg WideProg FourProg SpecChange BitProofs BitMain WideProofs WideProofs2 WideProofs5 FourProofs FourProofs2 FourProofs3 FourProofs4.
From Verif Require Iff3 Iff8 Iff13 Iff25 Iff2 SpecExact4 MachineProofs.
Import ListNotations.
Open Scope Z_scope.
Local Ltac Zify.zify_post_hook ::= idtac.

Lemma store_zero n s : 1 <= n <= 64 -> store n s 0 = 0.
Proof. intros H. unfold store, wrap. destruct (Z.eqb_spec n 1); [reflexivity|]. destruct (MachineProofs.storage_cases n ltac:(lia)) as (_ & _ & [-> | [-> | [-> | ->]]] & _); destruct s; reflexivity. Qed.
Lemma stored_zero n s : 1 <= n -> stored (vec_of n s 0) = 0.
Proof.
  intros H. destruct (Z.leb_spec n 64) as [L|L].
  - rewrite vec_of_small by lia. apply store_zero. lia.
  - rewrite stored_vec_of by lia. apply Z.mod_0_l. pose proof (Iff8.capacity_ge n ltac:(lia)). pose proof (Z.pow_pos_nonneg 2 (capacity n)). lia.
Qed.
Lemma words_zero k : blank (spread k 0) = true.
Proof. induction k as [|k IH]; [reflexivity|]. cbn [spread]. rewrite Z.mod_0_l, Z.div_0_l by discriminate. unfold blank in *. cbn [forallb]. rewrite IH. reflexivity. Qed.
Lemma vec_of_shape n s z : 1 <= n -> bmsb (vec_of n s z) = n - 1 /\ blsb (vec_of n s z) = 0 /\ bsgn (vec_of n s z) = s /\ bw (vec_of n s z) = n.
Proof. intros H. repeat split. apply vec_of_bw. exact H. Qed.

Lemma object_bw msb lsb s z : bw (object msb lsb s z) = width msb lsb. Proof. reflexivity. Qed.
Lemma stored_object0 msb lsb s : stored (object msb lsb s 0) = 0.
Proof.
  assert (W : 1 <= width msb lsb) by (unfold width; lia). pose proof (stored_zero (width msb lsb) s W) as E. unfold vec_of, object in *. replace (width (width msb lsb - 1) 0) with (width msb lsb) in E by (unfold width; lia). exact E.
Qed.

Section Change.
Variable dv : bool.
Variable sg : bool.
Variable one : option Z.
Let ord := ordinary dv sg one.
Let fit := fitting_width dv one.
(** the mask of a vector without x and z *)
Let none a := object (bmsb a) (blsb a) false 0.

Lemma none_bw a : bw (none a) = bw a. Proof. reflexivity. Qed.
Lemma none_stored a : stored (none a) = 0. Proof. apply stored_object0. Qed.
Lemma none_small a : small (none a) = small a. Proof. reflexivity. Qed.
Lemma none_num a : num (none a) = 0. Proof. unfold num. rewrite none_stored. reflexivity. Qed.
Lemma is_certain a : certain a = mkLogic a (none a). Proof. reflexivity. Qed.
Lemma ord_pos a : ord a -> 1 <= bw a < 2 ^ 31. Proof. intros (_ & F & _). apply F. Qed.
Lemma ord_fit a : ord a -> fit (bw a). Proof. intros (_ & F & _). exact F. Qed.
Lemma of_ord m s z : fit m -> (sg = false \/ one <> None -> s = false) -> ord (vec_of m s z).
Proof.
  intros F S. assert (M : 1 <= m < 2 ^ 31) by apply F. split; [apply vec_of_vec; lia|]. unfold fitting_type. cbn [vec_of object bmsb blsb bsgn]. replace (width (m - 1) 0) with m by (unfold width; lia). split; [exact F|]. split; [exact S|]. intros _. lia.
Qed.
Lemma ord_again a z : ord a -> ord (rewritten a z).
Proof. intros (V & F). split; [|exact F]. unfold rewritten. apply object_vec; apply V. Qed.
Lemma ord_self a : ord a -> a = rewritten a (stored a).
Proof. intros H. symmetry. apply stored_object_vec. apply H. Qed.
Lemma ord_plain a : ord a -> one <> None -> bmsb a = bw a - 1 /\ blsb a = 0 /\ bsgn a = false.
Proof. intros (_ & _ & S & P) O. destruct (P (or_introl O)) as [L M]. split; [|split; [exact L|apply S; right; exact O]]. unfold bw, width. rewrite L. lia. Qed.
Lemma ord_fit_max a b : ord a -> ord b -> fit (wider a b).
Proof. intros A B. unfold wider. destruct (Z.max_spec (bw a) (bw b)) as [[_ ->] | [_ ->]]; apply ord_fit; assumption. Qed.
Lemma ord_both a b : ord a -> sg = false \/ one <> None -> both_signed a b = false. Proof. intros (_ & _ & S & _) O. unfold both_signed. rewrite (S O). reflexivity. Qed.
Lemma dv_small a : ord a -> dv = true -> small a = true. Proof. intros H D. destruct (ord_fit a H) as (_ & F & _). specialize (F D). unfold small. lia. Qed.
Lemma written_is a z : bw a <= 64 -> written a z = rewritten a z.
Proof. intros H. unfold written, rewritten, object. change (width (bmsb a) (blsb a)) with (bw a). replace (bw a <=? 64) with true by lia. reflexivity. Qed.

(** ** results are ordinary *)
Lemma vector_ord n s z : 1 <= n <= 64 -> fit n -> (sg = false \/ one <> None -> s = false) -> ord (vector n s z).
Proof. intros N F S. rewrite <- vec_of_small by lia. apply of_ord; assumption. Qed.
Lemma both_ord a b z : ord a -> ord b -> small a && small b = true -> ord (vector (wider a b) (both_signed a b) z).
Proof.
  intros A B S. apply andb_true_iff in S as [SA SB]. unfold small in SA, SB. pose proof (ord_pos a A). pose proof (ord_pos b B). apply vector_ord; [unfold wider; lia|apply ord_fit_max; assumption|apply ord_both; assumption].
Qed.
Lemma computed_ord op u a b r : ord a -> ord b -> small a && small b = true -> computed op u a b = Ok r -> ord r.
Proof. intros A B S. unfold computed. cbn zeta. destruct (negb _); [discriminate|]. destruct (_ || _); [discriminate|]. intros E. injection E as <-. apply both_ord; assumption. Qed.
Lemma combined_ord f a b r : ord a -> ord b -> combined f a b = Ok r -> ord r.
Proof. intros A B. unfold combined. cbn zeta. destruct (negb _); [discriminate|]. destruct (f _ _); try discriminate. intros E. injection E as <-. apply of_ord; [apply ord_fit_max; assumption|apply ord_both; assumption]. Qed.
Lemma shift_ord nar f a b r : ord a -> ord b -> (forall x, nar a b = Ok x -> exists z, x = vector (bw a) (both_signed a b) z) -> any_shift nar f a b = Ok r -> ord r.
Proof.
  intros A B N. unfold any_shift. destruct (small a) eqn:S.
  - destruct (small b); [|discriminate]. intros E. destruct (N r E) as [z ->]. pose proof (ord_pos a A). unfold small in S. apply vector_ord; [lia|apply ord_fit; exact A|apply ord_both; exact A].
  - intros E. injection E as <-. apply of_ord; [apply ord_fit; exact A|apply ord_both; exact A].
Qed.
Lemma bitwise_ord op cut a b r : ord a -> ord b -> any_bitwise op cut a b = Ok r -> ord r.
Proof.
  intros A B. unfold any_bitwise. destruct (small a && small b) eqn:S; [|apply combined_ord; assumption]. unfold bitwise. cbn zeta. destruct (negb _); [discriminate|]. intros E. injection E as <-. apply both_ord; assumption.
Qed.
Lemma bin_ord o a b r : shared_bin dv sg one o -> ord a -> ord b -> any_bin o a b = Ok r -> ord r.
Proof.
  intros O A B. destruct o; cbn [any_bin]; try (apply bitwise_ord; assumption).
  - unfold any_sum. destruct (small a && small b) eqn:S; [apply computed_ord; assumption|apply combined_ord; assumption].
  - unfold any_difference. destruct (small a && small b) eqn:S; [apply computed_ord; assumption|apply combined_ord; assumption].
  - unfold any_product. cbn zeta. destruct (small a && small b) eqn:S; [apply computed_ord; assumption|apply combined_ord; assumption].
  - unfold any_quotient. destruct (small a && small b) eqn:S; [apply computed_ord; assumption|apply combined_ord; assumption].
  - unfold any_remainder. destruct (small a && small b) eqn:S; [|apply combined_ord; assumption]. unfold remainder. cbn zeta. destruct (negb _); [discriminate|]. destruct (_ || _); [discriminate|]. intros E. injection E as <-. apply both_ord; assumption.
  - apply shift_ord; try assumption. intros x. unfold shifted_left. destruct (shiftable a b); [|discriminate]. intros E. injection E as <-. eexists. reflexivity.
  - apply shift_ord; try assumption. intros x. unfold shifted_right. cbn zeta. destruct (bw a =? 1); destruct (_ && _); try discriminate; intros E; injection E as <-; eexists; reflexivity.
  - apply shift_ord; try assumption. intros x. unfold shifted_arith. destruct (shiftable a b); [|discriminate]. intros E. injection E as <-. eexists. reflexivity.
  - cbn [shared_bin] in O. unfold joined. cbn zeta. destruct (Z.leb_spec 64 (bw a + bw b)); [discriminate|]. destruct (_ <=? _); [discriminate|]. intros E. injection E as <-. pose proof (ord_pos a A). pose proof (ord_pos b B).
    apply vector_ord; [lia| |reflexivity]. unfold fit, fitting_width. rewrite (proj2 O). repeat split; lia.
Qed.
Lemma slice_shape a i j r : ord a -> any_slice a i j = Ok r -> exists m z, 1 <= m /\ (m <= 64 \/ m <= bw a) /\ (small a = true -> m <= 64) /\ r = vec_of m false z.
Proof.
  intros A E. pose proof (ord_pos a A). exists (Z.abs (i - j) + 1). unfold any_slice in E. destruct (small a) eqn:S.
  - assert (X : Z.abs (i - j) + 1 <= 64 /\ exists z, r = vector (Z.abs (i - j) + 1) false z); [|destruct X as (X & z & ->); exists z; split; [lia|]; split; [left; exact X|]; split; [intros; exact X|rewrite vec_of_small by lia; reflexivity]].
    unfold slice_fixed in E. cbn zeta in E. unfold small in S. destruct (negb _) eqn:G; [discriminate|].
    destruct ((bw a =? 1) && (Z.abs (i - j) + 1 =? 1)) eqn:Q; [injection E as <-; split; [lia|eexists; reflexivity]|].
    destruct (negb ((0 <=? _) && _)) eqn:G2; [discriminate|]. apply negb_false_iff, andb_true_iff in G2 as [G3 G4]. injection E as <-. split; [|eexists; reflexivity]. unfold slot_of in G3, G4.
    assert (St : (if bw a =? 1 then 8 else storage (bw a)) <= 64) by (destruct (bw a =? 1); [lia|]; unfold storage; repeat match goal with |- context [?u <=? ?v] => destruct (u <=? v) end; lia).
    destruct (bsgn a); lia.
  - cbn zeta in E. destruct (_ || _) eqn:G; [discriminate|]. apply orb_false_iff in G as [G _]. apply negb_false_iff in G. injection E as <-. eexists. split; [lia|]. split; [right; lia|]. split; [discriminate|reflexivity].
Qed.
Lemma slice_ord a i j r : one = None -> ord a -> any_slice a i j = Ok r -> ord r.
Proof.
  intros O A E. pose proof (ord_pos a A). destruct (slice_shape a i j r A E) as (m & z & M1 & M2 & M3 & ->). apply of_ord; [|reflexivity]. unfold fit, fitting_width. rewrite O. split; [lia|]. split; [|exact I]. intros D. apply M3. apply dv_small; assumption.
Qed.
Lemma un_ord o a r : shared_un dv sg one o -> ord a -> any_un o a = Ok r -> ord r.
Proof.
  intros O A. pose proof (ord_pos a A) as P. pose proof (ord_fit a A) as F. destruct o; cbn [any_un shared_un] in *; try contradiction.
  - unfold any_minus. destruct (small a) eqn:S; [|discriminate]. unfold negated. destruct (_ && _); [discriminate|]. intros E. injection E as <-. unfold small in S. rewrite written_is by lia. apply ord_again. exact A.
  - intros E. injection E as <-. unfold any_inverse. destruct (small a) eqn:S; [|apply of_ord; [exact F|reflexivity]]. unfold small in S. apply vector_ord; [lia|exact F|reflexivity].
  - destruct O as [O1 O2]. intros E. injection E as <-. apply of_ord; [exact F|]. intros [X|X]; congruence.
  - intros E. injection E as <-. apply of_ord; [exact F|reflexivity].
  - apply slice_ord; tauto.
  - destruct O as (O1 & O2 & _). unfold any_slice_dynamic. assert (1 <= m) by (unfold fitting_width in O2; lia). destruct (small a).
    + unfold slice_dynamic. cbn zeta. destruct (Z.ltb_spec 64 m); [discriminate|]. destruct (negb _); [discriminate|]. intros E. injection E as <-. apply vector_ord; [lia|exact O2|reflexivity].
    + cbn zeta. destruct (_ =? _); [discriminate|]. intros E. injection E as <-. apply of_ord; [exact O2|reflexivity].
Qed.

(** ** a vector without x and z is not taken for one with *)
Lemma widened_none a n : 0 <= n -> widened (none a) n = 0.
Proof.
  intros N. unfold widened. rewrite none_stored. destruct (_ =? _); [reflexivity|]. destruct (small _); reflexivity.
Qed.
Lemma sure_xz a n : ord a -> bw a <= n -> doubt_at (certain a) n = false.
Proof.
  intros A N. pose proof (ord_pos a A) as P. rewrite is_certain. unfold doubt_at, seems_nonzero. cbn [l_xz]. rewrite widened_none, none_stored by lia. destruct (n <=? 64); [reflexivity|].
  unfold seems_zero, words_of. rewrite words_zero. reflexivity.
Qed.
Lemma sure a : doubtful (certain a) = false.
Proof.
  rewrite is_certain. unfold doubtful, any_true. cbn [l_xz]. rewrite none_stored. destruct (small _); [reflexivity|]. unfold seems_zero, words_of. rewrite words_zero. reflexivity.
Qed.
Lemma lw_certain a : lw (certain a) = bw a. Proof. reflexivity. Qed.
Lemma ord_widths a b : ord a -> ord b -> widths_ok (certain a) (certain b) = false -> pairs_up a b = false.
Proof.
  intros A B. unfold widths_ok, plain_range, pairs_up. rewrite !lw_certain. destruct (bw a =? bw b); [discriminate|]. cbn [orb].
  assert (K : forall c, ord c -> (llsb (certain c) =? 0) && (0 <=? lmsb (certain c)) = false -> bsgn c || ((blsb c =? 0) && (0 <=? bmsb c)) = false).
  { intros c (_ & _ & _ & C) H. change (llsb (certain c)) with (blsb c) in H. change (lmsb (certain c)) with (bmsb c) in H. rewrite H. destruct (bsgn c); [|reflexivity]. destruct (C (or_intror eq_refl)). lia. }
  destruct (bw a <? bw b); apply K; assumption.
Qed.
Definition same4 (r : bit) (l : logic) : Prop := ord r /\ l = certain r.
Lemma alike_certain r : (forall x, r = Ok x -> ord x) -> alike dv same4 r (omap certain r).
Proof. intros N. destruct r; cbn; try exact I. split; [apply N; reflexivity|reflexivity]. Qed.
Lemma unless_sure {A} (x : A) r : unless false x r = r. Proof. destruct r; reflexivity. Qed.
Lemma arith_alike f a b : ord a -> ord b -> (forall x, f a b = Ok x -> ord x) -> (pairs_up a b = false -> f a b = IllFormed) -> alike dv same4 (f a b) (four_arith false f (certain a) (certain b)).
Proof.
  intros A B N Pu. unfold four_arith. destruct (widths_ok (certain a) (certain b)) eqn:W; cbn [negb]; [|rewrite (Pu (ord_widths a b A B W)); exact I]. rewrite !lw_certain. rewrite (sure_xz a) by (try exact A; lia). rewrite (sure_xz b) by (try exact B; lia). cbn [orb andb]. rewrite unless_sure. apply alike_certain. exact N.
Qed.
Lemma division_alike f a b : dv = true -> ord a -> ord b -> (forall x, f a b = Ok x -> ord x) -> (pairs_up a b = false -> f a b = IllFormed) -> (pairs_up a b = true -> stored b = 0 -> f a b = UB) -> alike dv same4 (f a b) (four_arith true f (certain a) (certain b)).
Proof.
  intros D A B N Pu Z. unfold four_arith. destruct (widths_ok (certain a) (certain b)) eqn:W; cbn [negb]; [|rewrite (Pu (ord_widths a b A B W)); exact I]. rewrite !lw_certain. rewrite (sure_xz a) by (try exact A; lia). rewrite (sure_xz b) by (try exact B; lia). cbn [orb andb].
  pose proof (dv_small a A D) as SA. pose proof (dv_small b B D) as SB. unfold small in SA, SB. unfold seems_nonzero. replace (Z.max (bw a) (bw b) <=? 64) with true by lia. change (l_val (certain b)) with b. change (l_val (certain a)) with a.
  destruct (Z.eqb_spec (stored b) 0) as [E|E]; cbn [negb]; [|rewrite unless_sure; apply alike_certain; exact N]. destruct (pairs_up a b) eqn:Q; [rewrite (Z eq_refl E); exact D|rewrite (Pu eq_refl); exact I].
Qed.
Lemma shift_alike nar f f0 a k : ord a -> ord k -> f0 (any_amount k) = 0 ->
  match nar a k, nar (none a) k with Ok x, Ok y => (exists z, x = vector (bw a) (both_signed a k) z) /\ y = vector (bw a) false 0 | UB, UB => True | _, _ => False end ->
  alike dv same4 (any_shift nar f a k) (let! v := any_shift nar f a k in let! m := any_shift nar f0 (none a) k in Ok (mkLogic v m)).
Proof.
  intros A K Z E. pose proof (ord_pos a A) as P. pose proof (ord_fit a A) as F. unfold any_shift in *. rewrite none_small. destruct (small a) eqn:Sa.
  - unfold small in Sa. destruct (small k); [|exact I]. destruct (nar a k) as [x| | | |]; destruct (nar (none a) k) as [y| | | |]; try contradiction; cbn [bind alike]; try exact I. destruct E as [[z ->] ->].
    rewrite <- !vec_of_small by lia. split; [|reflexivity]. apply of_ord; [exact F|apply ord_both; exact A].
  - cbn [bind alike]. rewrite Z, none_bw. split; [|reflexivity]. apply of_ord; [exact F|apply ord_both; exact A].
Qed.
Lemma four_shift_is f a k : four_shift f (certain a) (certain k) = let! v := f a k in let! m := f (none a) k in Ok (mkLogic v m).
Proof. unfold four_shift. rewrite !sure. cbn [orb]. rewrite unless_sure. reflexivity. Qed.
Lemma zero_div z : 0 / 2 ^ z = 0. Proof. destruct (2 ^ z); reflexivity. Qed.
Lemma none_shiftable a k : ord a -> bw a <= 64 -> shiftable (none a) k = shiftable a k.
Proof.
  intros A S. pose proof (ord_pos a A) as P. unfold shiftable, amount. rewrite none_bw. change (bsgn (none a)) with false. destruct (bsgn a) eqn:G; [|reflexivity]. unfold store. destruct (Z.eqb_spec (bw a) 1) as [E|E]; [reflexivity|]. unfold wrap.
  assert (C : (storage (bw a) = 8 \/ storage (bw a) = 16 \/ storage (bw a) = 32 \/ storage (bw a) = 64) /\ computing (bw a) <= Z.max 32 (storage (bw a))).
  { unfold storage, computing. repeat match goal with |- context [?u <=? ?v] => destruct (Z.leb_spec u v) end; lia. }
  set (st := storage (bw a)) in *. assert (H2 : 2 ^ st = 2 * 2 ^ (st - 1)) by (rewrite <- Z.pow_succ_r by lia; f_equal; lia). assert (B : computing (bw a) <= 2 ^ (st - 1)) by (destruct C as [[-> | [-> | [-> | ->]]] C]; cbn in *; lia).
  pose proof (Z.mod_pos_bound (stored k) (2 ^ st) ltac:(lia)) as R. set (h := 2 ^ (st - 1)) in *. set (w := stored k mod 2 ^ st) in *.
  assert (X : (stored k + h) mod 2 ^ st = if w <? h then w + h else w - h).
  { rewrite <- (Z.add_mod_idemp_l (stored k) h) by lia. fold w. destruct (Z.ltb_spec w h); [apply Z.mod_small; lia|]. replace (w + h) with (w - h + 1 * 2 ^ st) by lia. rewrite Z.mod_add by lia. apply Z.mod_small. lia. }
  rewrite X. destruct (Z.ltb_spec w h); lia.
Qed.
Lemma shifts_alike o a k : o = Shl \/ o = Shr \/ o = Ashr -> ord a -> ord k -> alike dv same4 (any_bin o a k) (four_bin (changed_bin o) (certain a) (certain k)).
Proof.
  intros O A K. pose proof (ord_pos a A) as P. assert (U : both_signed (none a) k = false) by reflexivity.
  assert (Sh : bw a <= 64 -> shiftable (none a) k = shiftable a k) by (apply none_shiftable; exact A).
  assert (Wide : forall nar f a', small a' = false -> exists z, any_shift nar f a' k = Ok (vec_of (bw a') (both_signed a' k) z)) by (intros nar f a' S; unfold any_shift; rewrite S; eexists; reflexivity).
  assert (Big : forall nar f f0, small a = false -> f0 (any_amount k) = 0 -> alike dv same4 (any_shift nar f a k) (let! v := any_shift nar f a k in let! m := any_shift nar f0 (none a) k in Ok (mkLogic v m))).
  { intros nar f f0 S Z. unfold any_shift. rewrite none_small, S. cbn [bind alike]. rewrite Z, none_bw. split; [|reflexivity]. apply of_ord; [apply ord_fit; exact A|apply ord_both; exact A]. }
  destruct O as [-> | [-> | ->]]; cbn [any_bin changed_bin four_bin]; rewrite four_shift_is.
  - assert (Z : forall z, (stored (none a) * 2 ^ z) mod 2 ^ bw (none a) = 0) by (intros z; rewrite none_stored; reflexivity).
    unfold any_left. destruct (small a) eqn:S; [|apply Big; [reflexivity|apply Z]]. unfold small in S. apply shift_alike; try assumption; [apply Z|].
    unfold shifted_left. rewrite Sh by lia. rewrite U, none_stored, none_bw. destruct (shiftable a k); [|exact I]. split; [eexists; reflexivity|reflexivity].
  - assert (Z : forall z, num (none a) / 2 ^ z = 0) by (intros z; rewrite none_num; apply zero_div).
    unfold any_right. apply shift_alike; try assumption; [apply Z|].
    unfold shifted_right. cbn zeta. rewrite U, none_stored, none_bw. destruct (bw a =? 1); destruct (_ && _); try exact I; (split; [eexists; reflexivity|]).
    + destruct (stored k =? 0); reflexivity.
    + rewrite zero_div. reflexivity.
  - assert (Z : forall z, num (none a) / 2 ^ z = 0) by (intros z; rewrite none_num; apply zero_div).
    unfold any_arith. change (bsgn (none a)) with false. destruct (small a) eqn:S; [|apply Big; [reflexivity|apply Z]]. unfold small in S. apply shift_alike; try assumption; [apply Z|].
    unfold shifted_arith. rewrite Sh by lia. rewrite U, none_stored, none_bw. destruct (shiftable a k); [|exact I]. split; [eexists; reflexivity|]. rewrite zero_div. reflexivity.
Qed.
Lemma wrap_zero s w : 1 <= w -> wrap s w 0 = 0.
Proof.
  intros W. unfold wrap. pose proof (Z.pow_pos_nonneg 2 (w - 1) ltac:(lia) ltac:(lia)). assert (2 ^ w = 2 * 2 ^ (w - 1)) by (rewrite <- Z.pow_succ_r by lia; f_equal; lia).
  destruct s; [|apply Z.mod_0_l; lia]. rewrite Z.mod_small by lia. lia.
Qed.
Lemma computing_pos n : 1 <= computing n. Proof. unfold computing. destruct (n <=? 32); lia. Qed.
Lemma join_alike a b : sg = false -> ord a -> ord b -> (forall r, joined a b = Ok r -> ord r) -> alike dv same4 (joined a b) (four_join (certain a) (certain b)).
Proof.
  intros O A B N. pose proof (ord_pos a A). pose proof (ord_pos b B). unfold four_join. rewrite !is_certain. cbn [l_val l_xz].
  assert (M : match joined a b with Ok r => (exists z, r = vec_of (bw a + bw b) false z) /\ joined (none a) (none b) = Ok (vec_of (bw a + bw b) false 0) | _ => True end).
  { destruct (joined a b) as [r| | | |] eqn:E; try exact I. unfold joined in *. cbn zeta in *. rewrite !none_bw. destruct (Z.leb_spec 64 (bw a + bw b)); [discriminate|]. destruct (_ <=? _); [discriminate|]. rewrite (vec_of_small (bw a + bw b)) by lia.
    rewrite !none_stored. cbn [Z.mul]. pose proof (computing_pos (bw a)). pose proof (computing_pos (bw b)). rewrite !wrap_zero by lia. split; [|reflexivity]. injection E as <-. rewrite <- vec_of_small by lia. eexists. reflexivity. }
  destruct (joined a b) as [r| | | |]; cbn [bind alike]; try exact I. destruct M as [[z E] ->]. cbn [bind alike]. specialize (N r eq_refl). split; [exact N|]. unfold lw, lsgn. cbn [l_val]. destruct A as (_ & _ & Sg & _). rewrite (Sg (or_introl O)).
  unfold vec4, object4. fold (vec_of (bw a + bw b) false (stored r)). replace (vec_of (bw a + bw b) false (stored r)) with r; [rewrite stored_zero by lia; rewrite E; reflexivity|]. pose proof (ord_self r N) as X. unfold rewritten in X. rewrite X at 1. rewrite E at 1 2 3. reflexivity.
Qed.
(** ** & | ^ ~ on vectors that fill their storage *)
Lemma full_some n : one = Some n -> one <> None. Proof. intros ->. discriminate. Qed.
Lemma full_certain a n : one = Some n -> ord a -> certain a = mkLogic a (vec_of (bw a) false 0).
Proof. intros O A. destruct (ord_plain a A (full_some n O)) as (M & L & _). rewrite is_certain. unfold none. rewrite M, L. reflexivity. Qed.
Lemma full_self a n : one = Some n -> ord a -> a = vec_of (bw a) false (stored a).
Proof. intros O A. destruct (ord_plain a A (full_some n O)) as (M & L & S). pose proof (ord_self a A) as E. unfold rewritten in E. rewrite M, L, S in E. exact E. Qed.
Lemma full_pairs a b n : one = Some n -> ord a -> ord b -> pairs_up a b = true.
Proof.
  intros O A B. destruct (ord_plain a A (full_some n O)) as (MA & LA & SA). destruct (ord_plain b B (full_some n O)) as (MB & LB & SB). pose proof (ord_pos a A). pose proof (ord_pos b B). unfold pairs_up. destruct (bw a =? bw b); [lia|]. destruct (bw a <? bw b); cbn zeta; apply orb_true_iff; right; lia.
Qed.
Lemma full_unsigned a b n : one = Some n -> ord a -> both_signed a b = false.
Proof. intros O A. apply ord_both; [exact A|]. right. apply (full_some n O). Qed.
Lemma full_ord n z : one = Some n -> fit n -> ord (vec_of n false z). Proof. intros O F. apply of_ord; [exact F|reflexivity]. Qed.
Lemma full_stored a n : one = Some n -> ord a -> 0 <= stored a < 2 ^ n /\ bw a = n /\ 2 <= n.
Proof.
  intros O A. pose proof (ord_pos a A) as P. destruct (ord_fit a A) as (_ & _ & F). rewrite O in F. destruct F as [W F]. assert (N2 : 2 <= n) by (unfold fills in F; lia). split; [|split; assumption].
  apply (Iff13.full_iff n N2) in F. pose proof (full_self a n O A) as E. rewrite W in E. rewrite E. destruct (Z.leb_spec n 64) as [L|L].
  - rewrite vec_of_small by lia. unfold vector. cbn [stored bval]. unfold store, wrap. replace (n =? 1) with false by lia. rewrite F. apply Z.mod_pos_bound. apply Z.pow_pos_nonneg; lia.
  - rewrite stored_vec_of by lia. rewrite F. apply Z.mod_pos_bound. apply Z.pow_pos_nonneg; lia.
Qed.
Lemma gather_is n g z : 1 <= n -> 0 <= z < 2 ^ n -> (forall p, 0 <= p < n -> g p = Z.testbit z p) -> gather (Z.to_nat n) g = z.
Proof. intros N R E. rewrite (gather_ext (Z.to_nat n) g (Z.testbit z)) by (intros p Hp; apply E; lia). apply gather_self. rewrite Z2Nat.id by lia. exact R. Qed.
Lemma gather_none n g : 1 <= n -> (forall p, 0 <= p < n -> g p = false) -> gather (Z.to_nat n) g = 0.
Proof. intros N E. apply gather_is; [exact N|pose proof (Z.pow_pos_nonneg 2 n); lia|]. intros p Hp. rewrite Z.bits_0. apply E. exact Hp. Qed.
Lemma op_range (f : Z -> Z -> Z) (g : bool -> bool -> bool) n x y : 1 <= n -> (forall a b i, 0 <= i -> Z.testbit (f a b) i = g (Z.testbit a i) (Z.testbit b i)) -> g false false = false -> 0 <= x < 2 ^ n -> 0 <= y < 2 ^ n -> 0 <= f x y < 2 ^ n.
Proof.
  intros N F G X Y. assert (E : f x y = f x y mod 2 ^ n).
  { apply Z.bits_inj'. intros i I0. rewrite testbit_mod_pow2 by lia. destruct (Z.ltb_spec i n) as [L|L]; [reflexivity|]. rewrite F by exact I0. rewrite <- (Z.mod_small x (2 ^ n)), <- (Z.mod_small y (2 ^ n)) by lia. rewrite !testbit_mod_pow2 by lia. replace (i <? n) with false by lia. exact G. }
  rewrite E. apply Z.mod_pos_bound. apply Z.pow_pos_nonneg; lia.
Qed.
Lemma sym_certain a p : ord a -> sym_at (certain a) p = sym_of_bool (bit_at a p).
Proof.
  intros A. pose proof (ord_pos a A) as P. unfold sym_at. rewrite is_certain. cbn [l_val l_xz]. replace (bit_at (none a) p) with false; [destruct (bit_at a p); reflexivity|].
  unfold bit_at. rewrite none_num, Z.bits_0. reflexivity.
Qed.
Lemma full_bit n a p : one = Some n -> ord a -> 0 <= p < n -> bit_at a p = Z.testbit (stored a) p.
Proof. intros O A Hp. destruct (full_stored a n O A) as (R & W & _). unfold bit_at, num. rewrite W, Z.mod_small by exact R. reflexivity. Qed.
Lemma wide_certain n a p : one = Some n -> ord a -> sym_wide (certain a) n p = sym_of_bool (Z.testbit (stored a) p).
Proof.
  intros O A. destruct (full_stored a n O A) as (R & W & N). unfold sym_wide. rewrite is_certain. cbn [l_val l_xz]. rewrite widened_none by lia. rewrite Z.bits_0. unfold widened. rewrite W, Z.eqb_refl. destruct (Z.testbit (stored a) p); reflexivity.
Qed.
Lemma table_alike o (f : Z -> Z -> Z) (g : bool -> bool -> bool) t cut a b n : one = Some n -> ord a -> ord b ->
  (forall a b i, 0 <= i -> Z.testbit (f a b) i = g (Z.testbit a i) (Z.testbit b i)) -> g false false = false -> (forall x y, t (sym_of_bool x) (sym_of_bool y) = sym_of_bool (g x y)) ->
  any_bin o a b = any_bitwise f cut a b -> alike dv same4 (any_bin o a b) (four_table t (certain a) (certain b)).
Proof.
  intros O A B F G T ->. destruct (full_stored a n O A) as (RA & WA & N). destruct (full_stored b n O B) as (RB & WB & _). pose proof (op_range f g n _ _ ltac:(lia) F G RA RB) as R.
  assert (E : any_bitwise f cut a b = Ok (vec_of n false (f (stored a) (stored b)))).
  { unfold any_bitwise. destruct (small a && small b) eqn:S.
    - unfold bitwise. cbn zeta. rewrite (full_pairs a b n O A B), (full_unsigned a b n O A). cbn [negb]. unfold wider. rewrite WA, WB, Z.eqb_refl, Z.max_id. rewrite vec_of_small; [reflexivity|]. unfold small in S. lia.
    - unfold combined. cbn zeta. rewrite (full_pairs a b n O A B), (full_unsigned a b n O A). cbn [negb]. unfold wider, widened. rewrite WA, WB, Z.max_id, Z.eqb_refl. rewrite Z.mod_small by exact R. destruct (_ || _); reflexivity. }
  rewrite E. assert (Or : ord (vec_of n false (f (stored a) (stored b)))) by (apply of_ord; [rewrite <- WA; apply ord_fit; exact A|reflexivity]).
  unfold four_table. rewrite !lw_certain, WA, WB, Z.eqb_refl, Z.max_id. destruct (ord_plain a A (full_some n O)) as (MA & LA & SA). destruct (ord_plain b B (full_some n O)) as (MB & LB & _). unfold llsb, lmsb, lsgn. cbn [certain l_val]. rewrite MA, LA, SA, MB, LB, WA, WB. cbn [andb]. replace (0 <=? n - 1) with true by lia. cbn [andb negb orb alike].
  split; [exact Or|]. rewrite (full_certain _ n O Or), vec_of_bw by lia. unfold from_syms, vec4, object4. fold (vec_of n false (f (stored a) (stored b))).
  rewrite (gather_is n _ (f (stored a) (stored b))); [|lia|exact R|].
  - rewrite gather_none; [reflexivity|lia|]. intros p Hp. rewrite (wide_certain n a p O A), (wide_certain n b p O B), T. destruct (g (Z.testbit (stored a) p) (Z.testbit (stored b) p)); reflexivity.
  - intros p Hp. rewrite (wide_certain n a p O A), (wide_certain n b p O B), T, F by lia. destruct (g (Z.testbit (stored a) p) (Z.testbit (stored b) p)); reflexivity.
Qed.
Lemma some_one : one <> None -> exists n, one = Some n. Proof. destruct one as [n|]; intros O; [exists n; reflexivity|now elim O]. Qed.
Lemma xor_alike a b n : one = Some n -> ord a -> ord b -> alike dv same4 (any_bin Xor a b) (four_xor (certain a) (certain b)).
Proof.
  intros O A B. destruct (full_stored a n O A) as (RA & WA & N). destruct (full_stored b n O B) as (RB & WB & _). pose proof (op_range Z.lxor xorb n _ _ ltac:(lia) (fun a b i _ => Z.lxor_spec a b i) eq_refl RA RB) as R.
  assert (E : any_bin Xor a b = Ok (vec_of n false (Z.lxor (stored a) (stored b)))).
  { cbn [any_bin]. unfold any_bitwise. destruct (small a && small b) eqn:S.
    - unfold bitwise. cbn zeta. rewrite (full_pairs a b n O A B), (full_unsigned a b n O A). cbn [negb]. unfold wider. rewrite WA, WB, Z.eqb_refl, Z.max_id. rewrite vec_of_small; [reflexivity|]. unfold small in S. lia.
    - unfold combined. cbn zeta. rewrite (full_pairs a b n O A B), (full_unsigned a b n O A). cbn [negb]. unfold wider, widened. rewrite WA, WB, Z.max_id, Z.eqb_refl. reflexivity. }
  rewrite E. assert (Or : ord (vec_of n false (Z.lxor (stored a) (stored b)))) by (apply of_ord; [rewrite <- WA; apply ord_fit; exact A|reflexivity]).
  unfold four_xor. cbn zeta. rewrite !lw_certain, WA, WB, Z.eqb_refl. destruct (ord_plain a A (full_some n O)) as (_ & _ & SA). destruct (ord_plain b B (full_some n O)) as (MB & LB & _). unfold llsb, lmsb, lsgn. cbn [certain l_val negb]. rewrite SA, MB, LB, WB. cbn [andb]. replace (0 <=? n - 1) with true by lia. cbn [negb orb alike].
  split; [exact Or|]. rewrite (full_certain _ n O Or), vec_of_bw by lia. unfold vec4, object4. fold (vec_of n false (Z.lxor (stored a) (stored b))).
  rewrite (gather_is n _ (Z.lxor (stored a) (stored b))); [|lia|exact R|].
  - rewrite (full_certain a n O A), (full_certain b n O B). cbn [l_xz]. rewrite WA, WB, stored_zero by lia. reflexivity.
  - intros p Hp. rewrite (sym_certain a p A), (sym_certain b p B), (full_bit n a p O A Hp), (full_bit n b p O B Hp), Z.lxor_spec. destruct (Z.testbit (stored a) p), (Z.testbit (stored b) p); reflexivity.
Qed.
Lemma not_alike a n : one = Some n -> ord a -> same4 (any_inverse a) (four_not (certain a)).
Proof.
  intros O A. destruct (full_stored a n O A) as (RA & WA & N). pose proof (ord_fit a A) as F. rewrite WA in F.
  assert (E : any_inverse a = vec_of n false (2 ^ n - 1 - stored a)).
  { unfold any_inverse, inverse. rewrite WA. destruct F as (_ & _ & F). rewrite O in F. destruct F as [_ F]. apply (Iff13.full_iff n N) in F. pose proof (Z.pow_pos_nonneg 2 n ltac:(lia) ltac:(lia)). destruct (small a) eqn:S.
    - unfold small in S. rewrite WA in S. rewrite S in F. replace (n =? 1) with false by lia. rewrite vec_of_small by lia. unfold vector, store, wrap. replace (n =? 1) with false by lia. rewrite F. do 2 f_equal. replace (- stored a - 1) with (2 ^ n - 1 - stored a + -1 * 2 ^ n) by lia. apply Z.mod_add. lia.
    - unfold small in S. rewrite WA in S. rewrite S in F. apply vec_of_mod; [lia|]. rewrite F. replace (- stored a - 1) with (2 ^ n - 1 - stored a + -1 * 2 ^ n) by lia. apply Z.mod_add. lia. }
  rewrite E. assert (Or : ord (vec_of n false (2 ^ n - 1 - stored a))) by (apply of_ord; [exact F|reflexivity]). split; [exact Or|]. rewrite (full_certain _ n O Or), vec_of_bw by lia. unfold four_not. cbn zeta. rewrite lw_certain, WA. unfold vec4, object4. fold (vec_of n false (2 ^ n - 1 - stored a)).
  rewrite (gather_is n _ (2 ^ n - 1 - stored a)); [|lia|lia|].
  - rewrite (full_certain a n O A). cbn [l_xz]. rewrite WA, stored_zero by lia. reflexivity.
  - intros p Hp. rewrite (sym_certain a p A), (full_bit n a p O A Hp). replace (2 ^ n - 1 - stored a) with (- stored a - 1 + 1 * 2 ^ n) by lia.
    assert (X : Z.testbit (- stored a - 1 + 1 * 2 ^ n) p = Z.testbit ((- stored a - 1 + 1 * 2 ^ n) mod 2 ^ n) p) by (rewrite testbit_mod_pow2 by lia; replace (p <? n) with true by lia; reflexivity).
    rewrite X, Z.mod_add by (pose proof (Z.pow_pos_nonneg 2 n); lia). rewrite testbit_mod_pow2 by lia. replace (p <? n) with true by lia. replace (- stored a - 1) with (Z.lnot (stored a)) by (unfold Z.lnot; lia). rewrite Z.lnot_spec by lia. destruct (Z.testbit (stored a) p); reflexivity.
Qed.
Lemma bin_alike o a b : shared_bin dv sg one o -> ord a -> ord b -> alike dv same4 (any_bin o a b) (four_bin (changed_bin o) (certain a) (certain b)).
Proof.
  intros O A B. pose proof (fun r => bin_ord o a b r O A B) as N.
  assert (Ill : match o with Plus | Less | Times | Quot | Rem => pairs_up a b = false -> any_bin o a b = IllFormed | _ => True end).
  { destruct o; try exact I; intros Q; cbn [any_bin]; unfold any_sum, any_difference, any_product, any_quotient, any_remainder, computed, combined, remainder; cbn zeta; rewrite Q; cbn [negb]; destruct (small a && small b); reflexivity. }
  destruct o; cbn [shared_bin changed_bin four_bin] in *; try (apply arith_alike; assumption); try (apply shifts_alike; tauto).
  - cbn [any_bin] in *. pose proof (dv_small a A O) as Sa. pose proof (dv_small b B O) as Sb. apply division_alike; try assumption. intros Q Z. unfold any_quotient. rewrite Sa, Sb. cbn [andb]. unfold computed. cbn zeta. rewrite Q, Z. reflexivity.
  - cbn [any_bin] in *. pose proof (dv_small a A O) as Sa. pose proof (dv_small b B O) as Sb. apply division_alike; try assumption. intros Q Z. unfold any_remainder. rewrite Sa, Sb. cbn [andb]. unfold remainder. cbn zeta. rewrite Q, Z. reflexivity.
  - destruct (some_one O) as [n On]. apply (table_alike And Z.land andb SpecExact4.lib_and true a b n); auto. intros; apply Z.land_spec. intros [] []; reflexivity.
  - destruct (some_one O) as [n On]. apply (table_alike Or Z.lor orb SpecExact4.lib_or false a b n); auto. intros; apply Z.lor_spec. intros [] []; reflexivity.
  - destruct (some_one O) as [n On]. apply (xor_alike a b n); auto.
  - apply join_alike; tauto.
Qed.
(** ** unary operators *)
Lemma slice_none a i j : ord a -> match any_slice a i j with Ok r => any_slice (none a) i j = Ok (vec_of (bw r) false 0) | _ => True end.
Proof.
  intros A. pose proof (ord_pos a A) as P. destruct (any_slice a i j) as [r| | | |] eqn:E; try exact I. destruct (slice_shape a i j r A E) as (m & w & M1 & M2 & M3 & Er). assert (Mr : bw r = m) by (rewrite Er; apply vec_of_bw; lia).
  unfold any_slice in *. rewrite none_small. destruct (small a) eqn:Sa; [specialize (M3 eq_refl)|]; unfold small in Sa.
  - unfold slice_fixed, slot_of in *. cbn zeta in *. rewrite none_bw, none_stored. change (bsgn (none a)) with false. change (blsb (none a)) with (blsb a). change (bmsb (none a)) with (bmsb a). destruct (negb ((Z.max i j <? bw a) && _)) eqn:G; [discriminate|].
    assert (Mm : m = Z.abs (i - j) + 1). { rewrite <- Mr. destruct ((bw a =? 1) && (Z.abs (i - j) + 1 =? 1)); [|destruct (negb ((0 <=? _) && _)); [discriminate|]]; injection E as <-; unfold vector, bw, width; cbn [bmsb blsb]; lia. }
    destruct ((bw a =? 1) && (Z.abs (i - j) + 1 =? 1)) eqn:Q.
    + rewrite <- !vec_of_small by lia. rewrite Mr, Mm. reflexivity.
    + destruct (negb ((0 <=? _) && _)) eqn:G2 in E; [discriminate|]. apply negb_false_iff, andb_true_iff in G2 as [G3 G4].
      match goal with |- context [if negb ?c then UB else _] => replace c with true; [|symmetry; apply andb_true_iff; destruct (bsgn a); lia] end. cbn [negb]. rewrite <- !vec_of_small by lia. rewrite Mr, Mm. do 2 f_equal. unfold cut. cbn [andb]. rewrite zero_div. destruct (bw a =? 1); [|reflexivity]. match goal with |- context [if ?c then 0 else 0] => destruct c; reflexivity end.
  - cbn zeta in *. rewrite none_bw, none_stored. change (blsb (none a)) with (blsb a). change (bmsb (none a)) with (bmsb a). destruct (_ || _) eqn:G; [discriminate|]. injection E as <-. rewrite vec_of_bw by lia. rewrite zero_div. reflexivity.
Qed.
Lemma slice_n_none a m i j : 1 <= m -> ord a -> match any_slice_dynamic a m i j with Ok r => any_slice_dynamic (none a) m i j = Ok (vec_of (bw r) false 0) | _ => True end.
Proof.
  intros M A. pose proof (ord_pos a A) as P. destruct (any_slice_dynamic a m i j) as [r| | | |] eqn:E; try exact I. unfold any_slice_dynamic in *. rewrite none_small. destruct (small a) eqn:Sa; unfold small in Sa.
  - unfold slice_dynamic, slot_of in *. cbn zeta in *. rewrite none_bw, none_stored. change (bsgn (none a)) with false. change (blsb (none a)) with (blsb a). change (bmsb (none a)) with (bmsb a). destruct (Z.ltb_spec 64 m); [discriminate|]. destruct (negb _) eqn:G in E; [discriminate|]. apply negb_false_iff in G.
    rewrite G. cbn [negb].
    injection E as <-. rewrite <- !vec_of_small by lia. rewrite vec_of_bw by lia. do 2 f_equal. unfold cut. cbn [andb]. rewrite zero_div. destruct (bw a =? 1); [|reflexivity]. match goal with |- context [if ?c then 0 else 0] => destruct c; reflexivity end.
  - cbn zeta in *. change (blsb (none a)) with (blsb a). change (bmsb (none a)) with (bmsb a). destruct (_ =? _); [discriminate|]. injection E as <-. rewrite vec_of_bw by lia. rewrite none_num. reflexivity.
Qed.
Lemma both_alike f a : (forall r, f a = Ok r -> ord r /\ exists z, r = vec_of (bw r) false z) -> match f a with Ok r => f (none a) = Ok (vec_of (bw r) false 0) | _ => True end -> alike dv same4 (f a) (both f (certain a)).
Proof.
  intros N E. unfold both. rewrite is_certain. cbn [l_val l_xz]. destruct (f a) as [r| | | |]; cbn [bind alike]; try exact I. rewrite E. cbn [bind alike]. destruct (N r eq_refl) as [O [z Z]]. split; [exact O|]. rewrite is_certain. f_equal. unfold none. assert (M : bmsb r = bw r - 1) by (rewrite Z at 1; reflexivity). assert (L : blsb r = 0) by (rewrite Z; reflexivity). rewrite M, L. reflexivity.
Qed.
Lemma un_alike o a : shared_un dv sg one o -> ord a -> alike dv same4 (any_un o a) (four_un (changed_un o) (certain a)).
Proof.
  intros O A. pose proof (ord_pos a A) as P. pose proof (fun r => un_ord o a r O A) as N.
  assert (Sg : forall s, ord (vec_of (bw a) s (stored a)) -> same4 (vec_of (bw a) s (stored a)) (four_sign s (certain a))).
  { intros s X. split; [exact X|]. unfold four_sign. rewrite !is_certain. unfold lw, vec4, object4. cbn [l_val l_xz]. rewrite none_stored. reflexivity. }
  destruct o; cbn [shared_un changed_un four_un any_un] in *; try contradiction.
  - unfold four_minus. rewrite sure, unless_sure. apply alike_certain. exact N.
  - destruct (some_one O) as [n On]. cbn [alike]. apply (not_alike a n); auto.
  - cbn [alike]. apply Sg, N. reflexivity.
  - cbn [alike]. apply Sg, N. reflexivity.
  - unfold four_slice. rewrite lw_certain. destruct (Z.ltb_spec (Z.max i j) (bw a)) as [L|L].
    + apply (both_alike (fun b => any_slice b i j)).
      * intros r E. split; [apply N; exact E|]. destruct (slice_shape a i j r A E) as (m & z & M & _ & _ & ->). exists z. rewrite vec_of_bw by lia. reflexivity.
      * apply slice_none. exact A.
    + unfold any_slice, slice_fixed. cbn zeta. replace (Z.max i j <? bw a) with false by lia. cbn [andb negb orb]. destruct (small a); exact I.
  - unfold four_slice_dynamic. destruct O as (_ & O & _). assert (M : 1 <= m) by (unfold fitting_width in O; lia). apply (both_alike (fun b => any_slice_dynamic b m i j)).
    + intros r E. split; [apply N; exact E|]. unfold any_slice_dynamic in E. destruct (small a).
      * unfold slice_dynamic in E. cbn zeta in E. destruct (Z.ltb_spec 64 m); [discriminate|]. destruct (negb _); [discriminate|]. injection E as <-. rewrite <- vec_of_small by lia. rewrite vec_of_bw by lia. eexists. reflexivity.
      * cbn zeta in E. destruct (_ =? _); [discriminate|]. injection E as <-. rewrite vec_of_bw by lia. eexists. reflexivity.
    + apply slice_n_none; assumption.
Qed.
Lemma new_alike msb lsb s z : int_ok msb -> int_ok lsb -> fitting_type dv sg one msb lsb s -> same4 (any_new msb lsb s z) (certain (any_new msb lsb s z)).
Proof.
  intros M L F. split; [|reflexivity]. unfold any_new. cbn zeta. split; [|exact F]. apply object_vec; [exact M|exact L|]. apply F.
Qed.
Lemma alike_bind {A B C D} (R : A -> B -> Prop) (S : C -> D -> Prop) r s f g : alike dv R r s -> (forall x y, R x y -> alike dv S (f x) (g y)) -> alike dv S (bind r f) (bind s g).
Proof. intros E F. destruct r as [x| | | |], s as [y| | | |]; cbn [alike bind] in *; try contradiction; try exact I; try assumption; [apply F; exact E|]. destruct (g y); assumption || exact I. Qed.
Lemma ex_alike env st e : (forall k, ord (env k)) -> matching env st -> shared_ex dv sg one e -> alike dv same4 (any_ex env e) (four_ex st (changed_ex e)).
Proof.
  intros D M. induction e as [k|msb lsb s z|o e IH|o e IHe f IHf]; cbn [shared_ex any_ex changed_ex four_ex]; intros O.
  - cbn [alike]. split; [apply D|apply M].
  - destruct O as (M1 & L1 & F & _). cbn [alike]. apply new_alike; assumption.
  - destruct O as [O1 O2]. apply (alike_bind same4); [apply IH; exact O2|]. intros a l [A ->]. apply un_alike; assumption.
  - destruct O as (O1 & O2 & O3). apply (alike_bind same4); [apply IHe; exact O2|]. intros a l [A ->]. apply (alike_bind same4); [apply IHf; exact O3|]. intros b m [B ->]. apply bin_alike; assumption.
Qed.
(** ** tests and statements *)
Lemma truth_single x : four_true (single (sym_of_bool x)) = x. Proof. destruct x; vm_compute; reflexivity. Qed.
Lemma rel_alike r a b : ord a -> ord b -> alike dv (fun (x : bool) l => four_true l = x) (any_rel r a b) (four_bin (changed_rel r) (certain a) (certain b)).
Proof.
  intros A B. assert (K : forall f, alike dv (fun (x : bool) l => four_true l = x) (f a b) (four_compare f (certain a) (certain b))).
  { intros f. unfold four_compare. rewrite sure, sure. cbn [orb]. rewrite unless_sure. cbn [certain l_val]. destruct (f a b); cbn; try exact I. apply truth_single. }
  destruct r; cbn [any_rel changed_rel four_bin]; apply K || apply (K (fun x y => omap negb (any_equal x y))).
Qed.
Lemma truth_alike a : ord a -> four_true (certain a) = any_true a.
Proof. intros A. unfold four_true. rewrite sure. reflexivity. Qed.
Lemma bind_bind {A B C} (m : outcome A) (f : A -> outcome B) (g : B -> outcome C) : bind (bind m f) g = bind m (fun x => bind (f x) g).
Proof. destruct m; reflexivity. Qed.
Lemma at_bit n a i : one = Some n -> ord a -> 0 <= i < n -> any_position a i = Ok (Z.testbit (stored a) i) /\ any_position (none a) i = Ok false.
Proof.
  intros O A I. destruct (full_stored a n O A) as (R & W & N). destruct (ord_plain a A (full_some n O)) as (MA & LA & _).
  assert (Sl : slot a i = i) by (unfold slot; rewrite MA, LA; replace (0 <=? bw a - 1) with true by lia; reflexivity).
  unfold any_position. rewrite none_small. change (slot (none a) i) with (slot a i). rewrite none_bw, Sl, none_stored. pose proof (ord_pos a A) as P. destruct (small a) eqn:S; unfold small in S.
  - unfold position. cbn zeta. change (slot (none a) i) with (slot a i). rewrite Sl, none_bw, none_stored. assert (n <= computing n) by (unfold computing; destruct (Z.leb_spec n 32); lia). rewrite W in *. replace ((0 <=? i) && (i <? computing n)) with true by lia. rewrite Z.bits_0. split; reflexivity.
  - cbn zeta. rewrite W in *. assert (X : i mod 2 ^ 64 = i) by (apply Z.mod_small; lia). rewrite X. replace (i <? n) with true by lia. rewrite Z.bits_0. split; reflexivity.
Qed.
Lemma at_alike n a i : one = Some n -> ord a -> 0 <= i < n -> alike dv (fun (x : bool) l => four_true l = x) (any_position a i) (four_at (certain a) i).
Proof.
  intros O A I. destruct (at_bit n a i O A I) as [E0 E1]. destruct (full_stored a n O A) as (_ & W & _). destruct (ord_plain a A (full_some n O)) as (MA & LA & _). unfold four_at. rewrite is_certain. unfold lmsb, llsb. cbn [l_val l_xz]. rewrite MA, LA, W.
  replace (negb _) with false by lia. rewrite E0, E1. cbn [bind andb alike]. destruct (Z.testbit (stored a) i); vm_compute; reflexivity.
Qed.
Lemma search_alike n a k : one = Some n -> ord a -> forall i, 0 <= i -> i + Z.of_nat k = n -> search (certain a) S0 k i = Ok (sym_of_bool (stored a / 2 ^ i =? 2 ^ Z.of_nat k - 1)).
Proof.
  intros O A. destruct (full_stored a n O A) as (R & W & N). induction k as [|k IH]; intros i I E.
  - cbn [search]. replace i with n by lia. rewrite Z.div_small by exact R. reflexivity.
  - cbn [search]. destruct (at_bit n a i O A ltac:(lia)) as [E0 E1]. rewrite is_certain. cbn [l_val l_xz]. rewrite E0, E1. cbn [bind]. rewrite <- is_certain. rewrite IH by lia.
    pose proof (Z.div2_odd (stored a / 2 ^ i)) as D. assert (D2 : stored a / 2 ^ i / 2 = stored a / 2 ^ (i + 1)) by (rewrite Z.div_div by (try apply Z.pow_nonzero; lia); rewrite Z.pow_add_r by lia; reflexivity). rewrite Z.div2_div, D2 in D. rewrite Z.testbit_odd, Z.shiftr_div_pow2 by lia.
    rewrite Nat2Z.inj_succ, Z.pow_succ_r by lia. destruct (Z.odd (stored a / 2 ^ i)); cbn [Z.b2z] in D.
    + do 2 f_equal. lia.
    + replace (stored a / 2 ^ i =? _) with false by lia. reflexivity.
Qed.
Lemma all_alike n a : one = Some n -> n <= 64 -> ord a -> alike dv (fun (x : bool) l => four_true l = x) (Ok (any_all_ones a)) (four_all (certain a)).
Proof.
  intros O L A. destruct (full_stored a n O A) as (R & W & N). destruct (ord_plain a A (full_some n O)) as (_ & _ & SA). unfold four_all. rewrite lw_certain, (search_alike n a _ O A) by lia. rewrite Z2Nat.id, Z.div_1_r by lia. unfold omap. cbn [bind alike]. rewrite truth_single.
  unfold any_all_ones, small, all_ones. rewrite W, SA. replace (n <=? 64) with true by lia. replace (n =? 1) with false by lia. reflexivity.
Qed.
Lemma test_alike env st t : (forall k, ord (env k)) -> matching env st -> shared_test dv sg one t -> alike dv eq (any_test env t) (four_test st (changed_test t)).
Proof.
  intros D M O. destruct t as [r e f|e|e i|e]; cbn [shared_test] in O; try contradiction; cbn [any_test changed_test four_test four_ex].
  - destruct O as [O2 O3].
    pose proof (alike_bind (fun (x : bool) l => four_true l = x) eq (let! a := any_ex env e in let! b := any_ex env f in any_rel r a b) (let! a := four_ex st (changed_ex e) in let! b := four_ex st (changed_ex f) in four_bin (changed_rel r) a b) (@Ok bool) (fun l => Ok (four_true l))) as X.
    assert (Y : forall (o : outcome bool), bind o (@Ok bool) = o) by (intros []; reflexivity). rewrite Y in X. apply X; [|intros x y <-; reflexivity].
    apply (alike_bind same4); [apply ex_alike; assumption|]. intros a l [A ->]. apply (alike_bind same4); [apply ex_alike; assumption|]. intros b m [B ->]. apply rel_alike; assumption.
  - apply (alike_bind same4); [apply ex_alike; assumption|]. intros a l [A ->]. cbn [alike]. symmetry. apply truth_alike. exact A.
  - destruct O as (O & _ & n & On & R). rewrite bind_bind.
    apply (alike_bind same4); [apply ex_alike; assumption|]. intros a l [A ->]. cbn [four_un]. pose proof (at_alike n a i On A R) as X. destruct (any_position a i), (four_at (certain a) i); cbn [alike bind] in *; try contradiction; try exact I; try assumption. symmetry. exact X.
  - destruct O as (O & n & On & R). rewrite bind_bind.
    apply (alike_bind same4); [apply ex_alike; assumption|]. intros a l [A ->]. cbn [four_un]. pose proof (all_alike n a On R A) as X. destruct (four_all (certain a)); cbn [alike bind] in *; try contradiction; try exact I; try assumption. symmetry. exact X.
Qed.
Definition same_state (env : state) (st : state4) : Prop := (forall k, ord (env k)) /\ matching env st.
Lemma upd_same env st k r l : same_state env st -> same4 r l -> same_state (upd env k r) (upd4 st k l).
Proof. intros [D M] [R ->]. split; intros j; unfold upd, upd4; cbn [four]; destruct (Nat.eqb j k); try exact R; try reflexivity; [apply D|apply M]. Qed.
Lemma again_same a z : ord a -> same4 (rewritten a z) (mkLogic (rewritten a z) (rewritten (none a) 0)).
Proof. intros A. split; [apply ord_again; exact A|reflexivity]. Qed.
Lemma assign_alike d a : ord d -> ord a -> alike dv same4 (any_assign d a) (four_assign (certain d) (certain a)).
Proof.
  intros D A. unfold four_assign. rewrite !is_certain. cbn [l_val l_xz]. unfold any_assign. rewrite !none_small, !none_bw, none_stored. destruct (_ || _); cbn [bind alike]; [|exact I]. apply again_same. exact D.
Qed.
Lemma step_alike x a : ord a -> alike dv same4 (any_step x a) (four_step x (certain a)).
Proof.
  intros A. pose proof (ord_pos a A) as P. unfold four_step, plain_range. rewrite lw_certain. unfold llsb, lmsb. cbn [certain l_val].
  assert (G : bsgn a || ((blsb a =? 0) && (0 <=? bmsb a)) = (blsb a =? 0) && (0 <=? bmsb a)).
  { destruct A as (_ & _ & _ & A). destruct (bsgn a); [|reflexivity]. destruct (A (or_intror eq_refl)). cbn [orb]. symmetry. apply andb_true_iff. lia. }
  assert (W : (bw a =? 1) || ((blsb a =? 0) && (0 <=? bmsb a)) = false -> any_step x a = IllFormed).
  { intros H. unfold any_step, stepped. cbn zeta. rewrite <- orb_assoc, G, H. apply orb_false_iff in H as [_ H]. rewrite H. destruct (small a); reflexivity. }
  destruct ((bw a =? 1) || _) eqn:E; cbn [negb]; [|rewrite (W eq_refl); exact I]. rewrite sure, unless_sure. apply alike_certain. intros r R. unfold any_step in R. destruct (small a) eqn:S; unfold small in S.
  - unfold stepped in R. cbn zeta in R. destruct (negb _); [discriminate|]. injection R as <-. rewrite written_is by lia. apply ord_again. exact A.
  - destruct (bsgn a || _); [|discriminate]. injection R as <-. apply ord_again. exact A.
Qed.
Lemma put_at_alike a i x : ord a -> alike dv same4 (any_with_position a i x) (four_put_at (certain a) i (if x then S1 else S0)).
Proof.
  intros A. pose proof (ord_pos a A) as P. unfold four_put_at. replace (high (if x then S1 else S0)) with x by (destruct x; reflexivity). replace (unknown (if x then S1 else S0)) with false by (destruct x; reflexivity). rewrite is_certain. cbn [l_val l_xz].
  assert (Cz : forall j, 0 <= j -> Z.clearbit 0 j = 0). { intros j J. apply Z.bits_inj'. intros q Q. rewrite Z.clearbit_eqb, Z.bits_0 by lia. reflexivity. }
  unfold any_with_position. rewrite none_small. destruct (small a) eqn:S; unfold small in S.
  - unfold with_position. cbn zeta. change (slot (none a) i) with (slot a i). change (blsb (none a)) with (blsb a). change (bmsb (none a)) with (bmsb a). rewrite none_stored. destruct ((0 <=? slot a i - _) && _) eqn:G; cbn [bind alike]; [|exact I]. apply andb_true_iff in G as [G _]. rewrite Cz by lia.
    rewrite !written_is by (rewrite ?none_bw; lia). apply again_same. exact A.
  - cbn [bind alike]. unfold placed. change (slot (none a) i) with (slot a i). change (blsb (none a)) with (blsb a). change (bmsb (none a)) with (bmsb a). rewrite none_stored. set (j := (_ - _) mod 2 ^ 64). assert (0 <= j) by (apply Z.mod_pos_bound; lia). rewrite Cz by lia. replace (if j <? bw (none a) then 0 else 0) with 0 by (destruct (j <? bw (none a)); reflexivity). apply again_same. exact A.
Qed.
Lemma put_alike o a b : shared_bin dv sg one o -> ord a -> ord b -> alike dv same4 (any_put o a b) (four_put (changed_bin o) (certain a) (certain b)).
Proof.
  intros O A B. pose proof (ord_pos a A) as P. pose proof (bin_alike o a b O A B) as R.
  assert (U : plain_range (certain a) && (negb (lsgn (certain a)) || lsgn (certain b)) = updatable a b) by reflexivity.
  assert (K : forall cut, (cut = true -> one <> None) -> alike dv same4 (any_assigned cut a b (any_bin o a b)) (four_assigned (certain a) (certain b) (four_bin (changed_bin o) (certain a) (certain b)))).
  { intros cut C. unfold any_assigned, four_assigned. rewrite U. destruct (updatable a b); cbn [negb]; [|exact I].
    match goal with |- alike _ _ ?l _ => replace l with (let! r := any_bin o a b in let! x := any_assign a r in Ok (if cut then rewritten a (stored x mod 2 ^ bw a) else x)) by (destruct (any_bin o a b) as [r| | | |]; try reflexivity; cbn [bind]; destruct (any_assign a r); reflexivity) end.
    apply (alike_bind same4); [exact R|]. clear R. intros r l [R ->]. pose proof (assign_alike a r A R) as X. destruct (any_assign a r) as [x| | | |] eqn:E; destruct (four_assign (certain a) (certain r)) as [y| | | |]; cbn [alike bind] in *; try contradiction; try exact I; try assumption.
    destruct X as [X ->]. destruct cut; [|split; [exact X|reflexivity]]. destruct (some_one (C eq_refl)) as [n On]. destruct (full_stored x n On X) as (Rx & Wx & _). destruct (full_stored a n On A) as (_ & Wa & _).
    rewrite Wa, Z.mod_small by exact Rx. unfold any_assign in E. destruct ((small a && small r) || _); [|discriminate]. injection E as <-. pose proof (ord_self _ X) as Y. change (rewritten (rewritten a (stored r))) with (rewritten a) in Y. rewrite <- Y. split; [exact X|reflexivity]. }
  destruct o; cbn [any_put changed_bin four_put]; try exact I; apply K; try exact (fun _ => O); discriminate.
Qed.
Lemma run_alike fuel : forall env st c, same_state env st -> shared dv sg one c -> alike dv same_state (any_run fuel env c) (four_run fuel st (changed c)).
Proof.
  induction fuel as [|fuel IH]; intros env st c D O; [exact I|]. pose proof (proj1 D) as D1. pose proof (proj2 D) as D2.
  assert (Next : forall c d, shared dv sg one c -> shared dv sg one d -> alike dv same_state (let! env' := any_run fuel env c in any_run fuel env' d) (let! st' := four_run fuel st (changed c) in four_run fuel st' (changed d))).
  { intros c' d' Oc Od. apply (alike_bind same_state); [apply IH; assumption|]. intros env' st' D'. apply IH; assumption. }
  assert (Upd : forall k r r4, alike dv same4 r r4 -> alike dv same_state (let! x := r in Ok (upd env k x)) (let! x := r4 in Ok (upd4 st k x))).
  { intros k r r4 R. apply (alike_bind same4); [exact R|]. intros x y X. apply upd_same; assumption. }
  assert (Ev : forall k e (f : bit -> outcome bit) (g : logic -> outcome logic), shared_ex dv sg one e -> (forall a, ord a -> alike dv same4 (f a) (g (certain a))) ->
    alike dv same_state (let! a := any_ex env e in let! x := f a in Ok (upd env k x)) (let! a := four_ex st (changed_ex e) in let! x := g a in Ok (upd4 st k x))).
  { intros k e f g Oe FG. apply (alike_bind same4); [apply ex_alike; assumption|]. intros a l [A ->]. apply Upd, FG. exact A. }
  destruct c; cbn [any_run changed four_run shared] in *.
  - exact D.
  - apply (Ev k e (any_assign (env k)) (four_assign (four st k))); [exact O|]. intros a A. rewrite (D2 k). apply assign_alike; [apply D1|exact A].
  - destruct O as [Oo Oe]. apply (Ev k e (any_put o (env k)) (four_put (changed_bin o) (four st k))); [exact Oe|]. intros a A. rewrite (D2 k). apply put_alike; [exact Oo|apply D1|exact A].
  - rewrite (D2 k). apply Upd, step_alike, D1.
  - rewrite (D2 k). apply Upd, step_alike, D1.
  - rewrite (D2 k). apply Upd, put_at_alike, D1.
  - apply Next; apply O.
  - destruct O as (O1 & O2 & O3). apply (alike_bind eq); [apply test_alike; assumption|]. intros b ? <-. destruct b; apply IH; assumption.
  - destruct O as (O1 & O2). apply (alike_bind eq); [apply test_alike; assumption|]. intros b ? <-. destruct b; [|exact D]. apply (Next c (While t c)); [exact O2|split; assumption].
Qed.

(** ** the programs satisfy the conditions of the reference machines *)
Lemma shared_ex_ok e : shared_ex dv sg one e -> wide_ex_ok e /\ ex4_ok (changed_ex e).
Proof.
  induction e as [k|msb lsb s z|o e IH|o e IHe f IHf]; cbn [shared_ex wide_ex_ok changed_ex ex4_ok]; intros O.
  - split; exact I.
  - destruct O as (M & L & F & R). assert (W : width msb lsb < 2 ^ 31) by apply F. unfold declared. tauto.
  - destruct O as [O1 O2]. destruct (IH O2) as [A B]. split; (split; [|assumption]); destruct o; cbn in *; try contradiction; try exact I; try tauto; unfold fitting_width in O1; tauto.
  - destruct O as (_ & O2 & O3). destruct (IHe O2), (IHf O3). repeat split; assumption.
Qed.
Lemma shared_test_ok t : shared_test dv sg one t -> wide_test_ok t /\ test4_ok (changed_test t).
Proof.
  destruct t; cbn [shared_test wide_test_ok changed_test test4_ok ex4_ok un4_ok]; try contradiction.
  - intros [A B]. destruct (shared_ex_ok e A), (shared_ex_ok f B). repeat split; assumption.
  - apply shared_ex_ok.
  - intros (A & B & _). destruct (shared_ex_ok e A). repeat split; try assumption; apply B.
  - intros [A _]. destruct (shared_ex_ok e A). repeat split; assumption.
Qed.
Lemma shared_ok c : shared dv sg one c -> wide_stmt_ok c /\ stmt4_ok (changed c).
Proof.
  induction c; cbn [shared wide_stmt_ok changed stmt4_ok]; intros O; try (split; exact I); try (split; exact O).
  - apply shared_ex_ok. exact O.
  - apply shared_ex_ok. apply O.
  - destruct O as [A B]. destruct (IHc1 A), (IHc2 B). repeat split; assumption.
  - destruct O as (T & A & B). destruct (IHc1 A), (IHc2 B), (shared_test_ok t T). repeat split; assumption.
  - destruct O as (T & A). destruct (IHc A), (shared_test_ok t T). repeat split; assumption.
Qed.
Lemma certain_lvec a : ord a -> lvec (certain a).
Proof. intros A. rewrite is_certain. split; [apply A|]. split; [apply object_vec; apply A|]. repeat split. Qed.
End Change.

Theorem changed_programs dv sg one fuel env st c : (forall k, ordinary dv sg one (env k)) -> (forall k, vec (two st k)) -> matching env st -> shared dv sg one c ->
  alike dv (fun env' st' => (forall k, ordinary dv sg one (env' k)) /\ matching env' st') (lib_run fuel env c) (lib4_run fuel st (changed c)).
Proof.
  intros D V M O. destruct (shared_ok dv sg one c O) as [O2 O4]. rewrite programs_any; [|intros k; apply D|exact O2]. rewrite programs_four; [|split; [exact V|intros k; rewrite M; apply (certain_lvec dv sg one), D]|exact O4].
  apply run_alike; [split; assumption|exact O].
Qed.
