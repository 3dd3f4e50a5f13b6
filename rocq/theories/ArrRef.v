(** Proofs: packed arrays against the reference machine of SpecArrRef.v. *)
From Coq Require Import ZArith List Bool Lia.
From Verif Require Import Cpp BigNum Bit Logic Arr Spec SpecArr ZBits Words BigNumProofs BitProofs BitSlice BitExt BitOps
  BitShift BitCmp BitMain BitMain2 BitMain3 BitMain4 BitMain5 LogicProofs LogicOps LogicRed LogicArith LogicArith2 LogicConv LogicConv2 LogicMain ArrProofs
  SpecExact SpecMachine SpecWide SpecFour SpecArrRef MachineProofs MachineProofs3 WideProofs WideProofs4 FourProofs FourProofs2 Iff5.
From Verif Require CounterProofs Iff3 Iff14 ReachProofs5.
Open Scope Z_scope.
Local Ltac Zify.zify_post_hook ::= idtac.

Lemma is_int_in z : in_ity TI32 z = is_int z. Proof. reflexivity. Qed.
Lemma is_int_ok z : is_int z = true <-> int_ok z.
Proof. unfold is_int, int_ok. rewrite andb_true_iff, Z.leb_le, Z.ltb_lt. lia. Qed.
Lemma addresses_ref t i : pa_addresses t i = if addressable t i then Ok (start t i, start t i + pa_base t) else UB.
Proof.
  unfold pa_addresses, addressable, start. rewrite ?arith_int, ?is_int_in. set (d := i - Z.min (pa_msb t) (pa_lsb t)).
  destruct (is_int d); cbn [bind andb]; [|reflexivity]. rewrite ?arith_int, ?is_int_in. destruct (is_int (d * pa_base t)) eqn:A; cbn [bind].
  - rewrite ?arith_int, ?is_int_in. destruct (is_int (d + 1)); cbn [bind andb]; [|reflexivity]. rewrite ?arith_int, ?is_int_in.
    replace ((d + 1) * pa_base t) with (d * pa_base t + pa_base t) by lia. destruct (is_int (d * pa_base t + pa_base t)); reflexivity.
  - now rewrite andb_false_r.
Qed.

Lemma index_ref t op : lvec op -> 1 <= pa_base t -> bits t < 2 ^ 31 ->
  (let! bad := pa_index_bad t op in if bad then Ok None else omap Some (pa_index op)) = ref_index t op.
Proof.
  intros V Hb Hs. pose proof (elems_pos t) as He. assert (Hp : 1 <= bits t) by (unfold bits; nia). unfold ref_index. destruct (Z.ltb_spec 64 (lw op)) as [W|W]; [rewrite index_big by lia; reflexivity|].
  unfold pa_index_bad. assert (native_num (lsize op) = true) as -> by (unfold native_num; apply Z.leb_le; exact W). cbn [requires].
  assert (D : bit_any_set (l_xz op) = negb (stored (l_xz op) =? 0)).
  { rewrite any_set_any by apply V. unfold any_true, small. replace (bw (l_xz op)) with (lw op). { now rewrite (proj2 (Z.leb_le _ _)) by exact W. } destruct V as (_ & _ & E1 & E2 & _). unfold lw, bw. congruence. }
  rewrite D. destruct (stored (l_xz op) =? 0) eqn:Ex; cbn [negb orb]; [|reflexivity].
  set (S := logic_of_arith 31 0 false (pa_size t)). assert (ES : l_val S = nat_bit 31 0 false (pa_size t)) by reflexivity.
  assert (LS : lvec S) by (apply (ltyped_lvec _ 32 false); split; [rewrite ES; apply (typed_nat 32 false (pa_size t)); lia|conc]).
  assert (SS : stored (l_val S) = bits t).
  { rewrite ES. rewrite tidy_value_stored; [|apply (typed_nat 32 false (pa_size t)); lia|apply nat_bit_tidy; change (width 31 0) with 32; rewrite ?pa_size_eq; fold (bits t); lia|].
    all: unfold value; cbn [bsgn nat_bit]; rewrite nat_bit_num_small by (change (width 31 0) with 32; rewrite ?pa_size_eq; fold (bits t); lia). { reflexivity. } rewrite pa_size_eq. fold (bits t). lia. }
  rewrite (ge_four op S V LS). unfold four_compare, any_greater_equal, any_order, small. fold (lw op). rewrite (proj2 (Z.leb_le _ _) W). change (bw (l_val S) <=? 64) with true. cbv iota.
  assert (doubtful op = false) as -> by (rewrite <- doubt_any by exact V; rewrite D; reflexivity). change (doubtful S) with false. cbn [orb unless omap bind].
  unfold ordered, both_signed. change (bsgn (l_val S)) with false. rewrite andb_false_r, SS. rewrite (Z.mod_small (bits t)) by lia. rewrite Z.geb_leb.
  pose proof (Z.mod_pos_bound (stored (l_val op)) (2 ^ 64) ltac:(lia)) as B.
  destruct (Z.leb_spec (bits t) (stored (l_val op) mod 2 ^ 64)) as [G|G]; [reflexivity|]. change (logic_bool (single (sym_of_bool false))) with false. cbn [bind].
  unfold pa_index, omap. unfold lw in W. destruct (vec_cases (l_val op) (proj1 V)) as [(v & Ev & Wv & Iv & Sv)|(ws & Ev & Wb & _)]; [|lia].
  rewrite Ev. cbn [bind]. rewrite Sv in *. apply in_ity_range in Iv. assert (Rv : - 2 ^ 63 <= v < 2 ^ 64).
  { set (h := hty _ _) in Iv. destruct h; cbn [isigned iwidth] in Iv; revert Iv; cbn; lia. }
  assert (0 <= v). { destruct (Z.le_gt_cases 0 v); [assumption|]. exfalso. replace (v mod 2 ^ 64) with (v + 2 ^ 64) in G. { lia. } replace v with (v + 2 ^ 64 + (-1) * 2 ^ 64) at 2 by lia. rewrite Z.mod_add, Z.mod_small by lia. reflexivity. }
  rewrite Z.mod_small in G by lia. now rewrite i32_id by lia.
Qed.


Lemma arr4_facts t a : arr4 t a -> 1 <= pa_base t /\ 1 <= bits t < 2 ^ 31 /\ lvec a /\ ltyped a (bits t) (pa_sgn t).
Proof.
  intros [Hb T]. fold (bits t) in T. pose proof (elems_pos t). assert (1 <= bits t) by (unfold bits; nia). pose proof (ltyped_lt a _ _ ltac:(eassumption) T). split; [exact Hb|]. split; [lia|]. split; [eapply ltyped_lvec; exact T|exact T].
Qed.
Lemma arr2_facts t a : arr2 t a -> 1 <= pa_base t /\ 1 <= bits t < 2 ^ 31 /\ vec a /\ typed a (bits t) (pa_sgn t).
Proof.
  intros [Hb T]. fold (bits t) in T. pose proof (elems_pos t). assert (1 <= bits t) by (unfold bits; nia). pose proof (typed_lt a _ _ ltac:(eassumption) T). split; [exact Hb|]. split; [lia|]. split; [apply T|exact T].
Qed.
Lemma addressable_ints t i : addressable t i = true -> int_ok (start t i) /\ int_ok (start t i + pa_base t).
Proof. unfold addressable. rewrite !andb_true_iff, !is_int_ok. tauto. Qed.

Lemma read4_ref t a op : arr4 t a -> lvec op -> pa_get t a op = ref_read4 t a op.
Proof.
  intros A V. destruct (arr4_facts t a A) as (Hb & Hn & La & _). unfold ref_read4, with_element. rewrite <- (index_ref t op V Hb ltac:(lia)). unfold pa_get.
  destruct (pa_index_bad t op) as [[|]| | | |]; cbn [bind]; try reflexivity. { f_equal. apply default_unknown. pose proof (elems_pos t). unfold bits in Hn. nia. }
  destruct (pa_index op) as [i| | | |]; cbn [bind omap]; try reflexivity. rewrite addresses_ref. destruct (addressable t i) eqn:E; cbn [bind fst snd]; [|reflexivity].
  destruct (addressable_ints t i E). now apply slice_dynamic_four.
Qed.
Lemma read2_ref t a op : arr2 t a -> lvec op -> pa_get_bit t a op = ref_read2 t a op.
Proof.
  intros A V. destruct (arr2_facts t a A) as (Hb & Hn & La & _). unfold ref_read2, with_element. rewrite <- (index_ref t op V Hb ltac:(lia)). unfold pa_get_bit.
  destruct (pa_index_bad t op) as [[|]| | | |]; cbn [bind]; try reflexivity. { f_equal. apply zero_object. }
  destruct (pa_index op) as [i| | | |]; cbn [bind omap]; try reflexivity. rewrite addresses_ref. destruct (addressable t i) eqn:E; cbn [bind fst snd]; [|reflexivity].
  destruct (addressable_ints t i E). now apply slice_r_any.
Qed.

(** * when reading an element is right *)
Lemma index_given t op i : index op i -> (lw op = 1 -> lsgn op = false) -> 1 <= bits t < 2 ^ 31 ->
  ref_index t op = if (0 <=? i) && (i <? bits t) then Ok (Some i) else Ok None.
Proof.
  intros (V & W & [D1 D2] & K & E) O Hs. unfold ref_index. rewrite (proj2 (Z.ltb_ge _ _)) by exact W.
  assert (Z0 : stored (l_xz op) = 0).
  { assert (A := proj2 (any_xz op V D2 (or_introl W)) K). rewrite any_set_any in A by apply V. unfold any_true, small in A.
    replace (bw (l_xz op)) with (lw op) in A by (destruct V as (_ & _ & E1 & E2 & _); unfold lw, bw; congruence). rewrite (proj2 (Z.leb_le _ _) W) in A. destruct (Z.eqb_spec (stored (l_xz op)) 0); [assumption|discriminate]. }
  rewrite Z0. cbn [Z.eqb negb orb]. assert (Sv : stored (l_val op) = i).
  { rewrite <- E. destruct (Z.eq_dec (lw op) 1) as [One|N1].
    - apply tidy_value_stored; [apply V|exact D1|]. unfold value. change (bsgn (l_val op)) with (lsgn op). rewrite (O One). apply num_range.
    - apply tidy_stored; [apply V|exact D1|]. unfold lw in *. pose proof (bw_pos (l_val op)). lia. }
  rewrite Sv. assert (Rv : - 2 ^ 63 <= i < 2 ^ 64).
  { unfold lw in W. destruct (vec_cases (l_val op) (proj1 V)) as [(v & Ev & Wv & Iv & Sv')|(ws & Ev & Wb & _)]; [|lia]. rewrite <- Sv, Sv'. apply in_ity_range in Iv.
    set (h := hty _ _) in Iv. destruct h; cbn [isigned iwidth] in Iv; revert Iv; cbn; lia. }
  destruct (Z.leb_spec 0 i); cbn [andb].
  - rewrite Z.mod_small by lia. destruct (Z.leb_spec (bits t) i), (Z.ltb_spec i (bits t)); try lia; reflexivity.
  - replace (i mod 2 ^ 64) with (i + 2 ^ 64). { rewrite (proj2 (Z.leb_le _ _)) by lia. reflexivity. } replace i with (i + 2 ^ 64 + (-1) * 2 ^ 64) at 2 by lia. rewrite Z.mod_add, Z.mod_small by lia. reflexivity.
Qed.
Lemma element_addressable t i : 1 <= pa_base t -> bits t < 2 ^ 31 -> element t i -> addressable t i = true.
Proof.
  intros Hb Hs El. assert (A := addresses_in t i Hb El Hs). rewrite addresses_ref in A. destruct (addressable t i); [reflexivity|discriminate].
Qed.

(** one element of one position of a small array *)
Lemma low_two x : - 2 <= x < 2 -> (x =? 0) = negb (Z.testbit x 0 || Z.testbit x 1).
Proof. intros H. assert (x = -2 \/ x = -1 \/ x = 0 \/ x = 1) as [-> | [-> | [-> | ->]]] by lia; reflexivity. Qed.
Lemma low_two_mod x : (x mod 2 ^ 2 =? 0) = negb (Z.testbit x 0 || Z.testbit x 1).
Proof.
  rewrite <- (Z.mod_pow2_bits_low x 2 0), <- (Z.mod_pow2_bits_low x 2 1) by lia. pose proof (Z.mod_pos_bound x (2 ^ 2) ltac:(lia)) as B. set (y := x mod 2 ^ 2) in *.
  assert (y = 0 \/ y = 1 \/ y = 2 \/ y = 3) as [-> | [-> | [-> | ->]]] by lia; reflexivity.
Qed.
Lemma slot_of_plain a n s i : 1 <= n -> typed a n s -> slot_of a i = i.
Proof. intros Hn T. unfold slot_of. destruct T as (_ & (E1 & E2) & _). rewrite E1, E2. lia. Qed.
Lemma slice_one a n s lo : 2 <= n <= 64 -> typed a n s -> tidy a -> 0 <= lo < n -> lo + 1 < storage n ->
  exists r, any_slice_dynamic a 1 lo (lo + 1) = Ok r /\ typed r 1 false /\ bit_at r 0 = (bit_at a lo || ((lo + 1 <? n) && bit_at a (lo + 1))).
Proof.
  intros Hn T Y Hlo Hst. assert (V : vec a) by apply T. assert (W := typed_bw a n s ltac:(lia) T). unfold any_slice_dynamic, small. rewrite W, (proj2 (Z.leb_le _ _)) by lia.
  unfold slice_dynamic. rewrite W, !(slot_of_plain a n s) by (assumption || lia). rewrite Z.min_l, Z.max_r by lia. change (64 <? 1) with false. cbv iota.
  rewrite (proj2 (Z.eqb_neq n 1)) by lia. rewrite (proj2 (Z.leb_le 0 lo)), (proj2 (Z.ltb_lt _ _)) by lia. cbn [andb negb].
  eexists. split; [reflexivity|]. split; [apply CounterProofs.plain_vector; lia|]. unfold bit_at at 1. rewrite vector_one.
  assert (Q : (cut (bsgn a) (storage n) (stored a) lo (lo + 1) =? 0) = negb (Z.testbit (stored a) lo || Z.testbit (stored a) (lo + 1))).
  { assert (T0 : Z.testbit (stored a) lo = Z.testbit (stored a / 2 ^ lo) 0) by (rewrite Z.div_pow2_bits by lia; reflexivity).
    assert (T1 : Z.testbit (stored a) (lo + 1) = Z.testbit (stored a / 2 ^ lo) 1) by (rewrite Z.div_pow2_bits by lia; f_equal; lia).
    rewrite T0, T1. unfold cut. destruct (bsgn a && (lo + 1 =? storage n - 1)) eqn:C.
    - apply low_two. apply andb_prop in C. destruct C as [C1 C2]. apply Z.eqb_eq in C2.
      assert (R : - 2 ^ (storage n - 1) <= stored a < 2 ^ (storage n - 1)).
      { destruct (vec_cases_n a n V W) as [(v & Ev & _ & Iv & Sv & _)|(ws & _ & L & _)]; [|lia]. rewrite Sv. apply in_values in Iv; [|lia]. rewrite (proj2 (Z.eqb_neq n 1)), C1 in Iv by lia. exact Iv. }
      replace (storage n - 1) with (lo + 1) in R by lia. rewrite Z.pow_add_r in R by lia. change (2 ^ 1) with 2 in R. pose proof (pow2_pos lo ltac:(lia)). split.
      + apply Z.div_le_lower_bound; lia.
      + apply Z.div_lt_upper_bound; lia.
    - replace (lo + 1 - lo + 1) with 2 by lia. apply low_two_mod. }
  rewrite Q. rewrite (bit_at_stored a lo) by lia.
  assert (N : Z.testbit (stored a) (lo + 1) = if lo + 1 <? n then bit_at a (lo + 1) else (if s then Z.testbit (stored a) lo else false)).
  { destruct (Z.ltb_spec (lo + 1) n); [symmetry; apply bit_at_stored; lia|]. assert (lo = n - 1) by lia. subst lo. replace (n - 1 + 1) with n by lia. rewrite (tidy_stored a V Y) by lia.
    assert (Gs : bsgn a = s) by (apply (typed_sgn a n s T)). unfold value. rewrite Gs. destruct s.
    - pose proof (BitMain3.snum_range a) as R. rewrite W in R. destruct (Z.le_gt_cases 0 (snum a)).
      + rewrite !(Iff14.testbit_high _ (n - 1)) by lia. reflexivity.
      + rewrite !(Iff14.testbit_neg _ (n - 1)) by lia. reflexivity.
    - pose proof (num_range a) as R. rewrite W in R. apply (Iff14.testbit_high _ n); lia. }
  rewrite N. destruct (lo + 1 <? n), s, (Z.testbit (stored a) lo); cbn [orb andb negb]; try (destruct (bit_at a (lo + 1))); reflexivity.
Qed.

Lemma slice_single a s : typed a 1 s -> any_slice_dynamic a 1 0 1 = Ok (vector 1 false 0).
Proof.
  intros T. assert (W := typed_bw a 1 s ltac:(lia) T). unfold any_slice_dynamic, small. rewrite W. change (1 <=? 64) with true. cbv iota.
  unfold slice_dynamic. rewrite W, !(slot_of_plain a 1 s) by (assumption || lia). reflexivity.
Qed.
Lemma slice_past a n s m lo : 2 <= n <= 64 -> typed a n s -> 1 <= m <= 64 -> storage n <= lo + m -> any_slice_dynamic a m lo (lo + m) = UB.
Proof.
  intros Hn T Hm H. assert (W := typed_bw a n s ltac:(lia) T). unfold any_slice_dynamic, small. rewrite W, (proj2 (Z.leb_le _ _)) by lia.
  unfold slice_dynamic. rewrite W, !(slot_of_plain a n s) by (assumption || lia). rewrite Z.min_l, Z.max_r by lia. rewrite (proj2 (Z.ltb_ge 64 m)) by lia.
  rewrite (proj2 (Z.eqb_neq n 1)) by lia. rewrite (proj2 (Z.ltb_ge _ _)) by lia. rewrite andb_false_r. reflexivity.
Qed.
Lemma unknown_all n : 1 <= n < 2 ^ 31 -> forall p, 0 <= p < n -> sym_at (all_unknown n false) p = SX.
Proof.
  intros Hn p Hp. rewrite <- default_unknown by lia. destruct (default_typed n false ltac:(lia)) as [T A]. apply A. rewrite (ltyped_lw _ n false ltac:(lia) T). exact Hp.
Qed.
Lemma base_bits t i : 1 <= pa_base t -> element t i -> pa_base t <= bits t /\ 0 <= start t i /\ start t i + pa_base t <= bits t.
Proof. intros Hb El. destruct (start_range t i Hb El). unfold bits. pose proof (elems_pos t). nia. Qed.

Lemma read4_iff t a op i : arr4 t a -> ltidy a -> index op i -> (lw op = 1 -> lsgn op = false) -> element t i ->
  ((exists r, pa_get t a op = Ok r /\ forall p, 0 <= p < pa_base t -> sym_at r p = sym_at a (start t i + p)) <-> reads_right4 t a i) /\
  (pa_get t a op = UB <-> 0 <= i < bits t /\ 2 <= bits t <= 64 /\ storage (bits t) <= start t i + pa_base t).
Proof.
  intros A [Y1 Y2] Ix O El. destruct (arr4_facts t a A) as (Hb & Hn & La & T). destruct (base_bits t i Hb El) as (B1 & B2 & B3). assert (V : lvec op) by apply Ix.
  rewrite (read4_ref t a op A V). unfold ref_read4, with_element. rewrite (index_given t op i Ix O Hn). unfold reads_right4. cbv zeta.
  destruct ((0 <=? i) && (i <? bits t)) eqn:Ei.
  - assert (Hi : 0 <= i < bits t) by lia. rewrite (element_addressable t i Hb ltac:(lia) El).
    assert (Good : forall r, four_slice_dynamic a (pa_base t) (start t i) (start t i + pa_base t) = Ok r -> (forall p, 0 <= p < pa_base t -> sym_at r p = sym_at a (start t i + p)) ->
      (2 <= bits t <= 64 -> start t i + pa_base t < storage (bits t)) ->
      ((exists r, four_slice_dynamic a (pa_base t) (start t i) (start t i + pa_base t) = Ok r /\ forall p, 0 <= p < pa_base t -> sym_at r p = sym_at a (start t i + p)) <-> True) /\
      (four_slice_dynamic a (pa_base t) (start t i) (start t i + pa_base t) = UB <-> 0 <= i < bits t /\ 2 <= bits t <= 64 /\ storage (bits t) <= start t i + pa_base t)).
    { intros r E Q S0. rewrite E. split; [split; [auto|intros _; exists r; auto]|]. split; [discriminate|]. intros (_ & G1 & G2). specialize (S0 G1). lia. }
    assert (Ints : int_ok (start t i) /\ int_ok (start t i + pa_base t)) by (apply addressable_ints, element_addressable; auto; lia). destruct Ints as [I1 I2].
    destruct (Z.le_gt_cases 65 (bits t)) as [L|L].
    + destruct (lslice_over a (bits t) (pa_sgn t) (pa_base t) (start t i) ltac:(lia) T ltac:(lia) ltac:(lia) ltac:(lia) ltac:(intros; lia)) as (r & E & _ & Q).
      rewrite slice_dynamic_four in E by (assumption || lia). destruct (Good r E Q ltac:(lia)) as [G1 G2]. split; [|exact G2]. rewrite G1. tauto.
    + destruct (Z.eq_dec (bits t) 1) as [One|N1].
      * assert (S0 : start t i = 0) by lia. assert (Sb : pa_base t = 1) by lia. rewrite S0, Sb, One in *. unfold four_slice_dynamic, both. change (0 + 1) with 1.
        rewrite (slice_single _ _ (proj1 T)), (slice_single _ _ (proj2 T)). cbn [bind]. split.
        -- split.
           ++ intros (r & E & Q). injection E as <-. specialize (Q 0 ltac:(lia)). right. left. split; [reflexivity|]. symmetry. exact Q.
           ++ intros [H|[[_ H]|[H _]]]; [lia| |lia]. eexists. split; [reflexivity|]. intros p Hp. replace p with 0 by lia. rewrite Z.add_0_r, H. reflexivity.
        -- split; [discriminate|lia].
      * destruct (Z.lt_ge_cases (start t i + pa_base t) (storage (bits t))) as [St|St].
        -- destruct (Z.eq_dec (pa_base t) 1) as [Sb|Nb].
           ++ rewrite Sb in *. destruct (slice_one (l_val a) (bits t) (pa_sgn t) (start t i) ltac:(lia) (proj1 T) Y1 ltac:(lia) St) as (v & Ev & Tv & Bv).
              destruct (slice_one (l_xz a) (bits t) false (start t i) ltac:(lia) (proj2 T) Y2 ltac:(lia) St) as (m & Em & Tm & Bm).
              unfold four_slice_dynamic, both. rewrite Ev, Em. cbn [bind]. split; [|split; [discriminate|lia]].
              assert (Q : sym_at (mkLogic v m) 0 = sym_at a (start t i) <-> start t i + 1 = bits t \/ mixes (sym_at a (start t i)) (sym_at a (start t i + 1))).
              { unfold sym_at at 1. cbn [l_val l_xz]. rewrite Bv, Bm. destruct (Z.ltb_spec (start t i + 1) (bits t)).
                - unfold mixes, sym_at. destruct (bit_at (l_val a) (start t i)), (bit_at (l_xz a) (start t i)), (bit_at (l_val a) (start t i + 1)), (bit_at (l_xz a) (start t i + 1));
                    cbn [orb andb sym_of high unknown]; (split; [intros X; try discriminate X; right; split; intros ?; congruence|intros [X|[X1 X2]]; [lia|try reflexivity; try (specialize (X1 eq_refl)); try (specialize (X2 eq_refl)); congruence]]).
                - rewrite !andb_false_l, !orb_false_r. split; [intros _; left; lia|reflexivity]. }
              split.
              ** intros (r & E & R). injection E as <-. specialize (R 0 ltac:(lia)). rewrite Z.add_0_r in R. apply Q in R. right. right. split; [lia|]. split; [exact St|]. tauto.
              ** intros [H|[H|(_ & _ & H)]]; [lia|lia|]. eexists. split; [reflexivity|]. intros p Hp. replace p with 0 by lia. rewrite Z.add_0_r. apply Q. destruct H; [lia|tauto].
           ++ destruct (storage_cases (bits t) ltac:(lia)) as (_ & _ & _ & Is).
              destruct (lslice_over a (bits t) (pa_sgn t) (pa_base t) (start t i) ltac:(lia) T ltac:(lia) ltac:(lia) ltac:(lia)) as (r & E & _ & Q). { intros _. rewrite hty_iw, Is. lia. }
              rewrite slice_dynamic_four in E by (assumption || lia). destruct (Good r E Q ltac:(lia)) as [G1 G2]. split; [|exact G2]. rewrite G1. split; [|tauto]. intros _. right. right. split; [lia|]. split; [exact St|]. left. lia.
        -- unfold four_slice_dynamic, both. rewrite (slice_past (l_val a) (bits t) (pa_sgn t)) by (try apply T; lia). cbn [bind]. split; [|split; [intros _; lia|reflexivity]].
           split; [intros (r & E & _); discriminate E|]. intros [H|[H|H]]; lia.
  - split; [|split; [discriminate|lia]]. split.
    + intros (r & E & Q). injection E as <-. intros p Hp. rewrite <- Q by exact Hp. apply unknown_all; lia.
    + intros H. eexists. split; [reflexivity|]. intros p Hp. rewrite H by exact Hp. apply unknown_all; lia.
Qed.
Lemma zero_num n : 1 <= n < 2 ^ 31 -> num (vec_of n false 0) = 0.
Proof. intros Hn. unfold vec_of. rewrite <- zero_object. unfold num. rewrite ReachProofs5.stored_zero. apply Z.mod_0_l. pose proof (bw_pos (bit_zero (n - 1) 0 false)) as B. pose proof (pow2_pos _ (Z.le_trans _ _ _ Z.le_0_1 B)). lia. Qed.
Lemma read2_iff t a op i : arr2 t a -> tidy a -> index op i -> (lw op = 1 -> lsgn op = false) -> element t i ->
  ((exists r, pa_get_bit t a op = Ok r /\ forall p, 0 <= p < pa_base t -> bit_at r p = bit_at a (start t i + p)) <-> reads_right2 t a i) /\
  (pa_get_bit t a op = UB <-> 0 <= i < bits t /\ 2 <= bits t <= 64 /\ storage (bits t) <= start t i + pa_base t).
Proof.
  intros A Y1 Ix O El. destruct (arr2_facts t a A) as (Hb & Hn & La & T). destruct (base_bits t i Hb El) as (B1 & B2 & B3). assert (V : lvec op) by apply Ix.
  rewrite (read2_ref t a op A V). unfold ref_read2, with_element. rewrite (index_given t op i Ix O Hn). unfold reads_right2. cbv zeta.
  destruct ((0 <=? i) && (i <? bits t)) eqn:Ei.
  - assert (Hi : 0 <= i < bits t) by lia. rewrite (element_addressable t i Hb ltac:(lia) El).
    assert (Good : forall r, any_slice_dynamic a (pa_base t) (start t i) (start t i + pa_base t) = Ok r -> (forall p, 0 <= p < pa_base t -> bit_at r p = bit_at a (start t i + p)) ->
      (2 <= bits t <= 64 -> start t i + pa_base t < storage (bits t)) ->
      ((exists r, any_slice_dynamic a (pa_base t) (start t i) (start t i + pa_base t) = Ok r /\ forall p, 0 <= p < pa_base t -> bit_at r p = bit_at a (start t i + p)) <-> True) /\
      (any_slice_dynamic a (pa_base t) (start t i) (start t i + pa_base t) = UB <-> 0 <= i < bits t /\ 2 <= bits t <= 64 /\ storage (bits t) <= start t i + pa_base t)).
    { intros r E Q S0. rewrite E. split; [split; [auto|intros _; exists r; auto]|]. split; [discriminate|]. intros (_ & G1 & G2). specialize (S0 G1). lia. }
    assert (Ints : int_ok (start t i) /\ int_ok (start t i + pa_base t)) by (apply addressable_ints, element_addressable; auto; lia). destruct Ints as [I1 I2].
    destruct (Z.le_gt_cases 65 (bits t)) as [L|L].
    + destruct (slice_over a (bits t) (pa_sgn t) (pa_base t) (start t i) ltac:(lia) T ltac:(lia) ltac:(lia) ltac:(lia) ltac:(intros; lia)) as (r & E & _ & Q).
      rewrite slice_r_any in E by (assumption || lia). destruct (Good r E Q ltac:(lia)) as [G1 G2]. split; [|exact G2]. rewrite G1. tauto.
    + destruct (Z.eq_dec (bits t) 1) as [One|N1].
      * assert (S0 : start t i = 0) by lia. assert (Sb : pa_base t = 1) by lia. rewrite S0, Sb, One in *. change (0 + 1) with 1.
        rewrite (slice_single _ _ T). split.
        -- split.
           ++ intros (r & E & Q). injection E as <-. specialize (Q 0 ltac:(lia)). right. left. split; [reflexivity|]. symmetry. exact Q.
           ++ intros [H|[[_ H]|[H _]]]; [lia| |lia]. eexists. split; [reflexivity|]. intros p Hp. replace p with 0 by lia. rewrite Z.add_0_r, H. reflexivity.
        -- split; [discriminate|lia].
      * destruct (Z.lt_ge_cases (start t i + pa_base t) (storage (bits t))) as [St|St].
        -- destruct (Z.eq_dec (pa_base t) 1) as [Sb|Nb].
           ++ rewrite Sb in *. destruct (slice_one a (bits t) (pa_sgn t) (start t i) ltac:(lia) T Y1 ltac:(lia) St) as (v & Ev & Tv & Bv).
              rewrite Ev. split; [|split; [discriminate|lia]].
              assert (Q : bit_at v 0 = bit_at a (start t i) <-> start t i + 1 = bits t \/ (bit_at a (start t i + 1) = true -> bit_at a (start t i) = true)).
              { rewrite Bv. destruct (Z.ltb_spec (start t i + 1) (bits t)).
                - destruct (bit_at a (start t i)), (bit_at a (start t i + 1)); cbn [orb andb]; (split; [intros X; try discriminate X; right; congruence|intros [X|X]; [lia|try reflexivity; try (specialize (X eq_refl)); congruence]]).
                - rewrite !andb_false_l, !orb_false_r. split; [intros _; left; lia|reflexivity]. }
              split.
              ** intros (r & E & R). injection E as <-. specialize (R 0 ltac:(lia)). rewrite Z.add_0_r in R. apply Q in R. right. right. split; [lia|]. split; [exact St|]. tauto.
              ** intros [H|[H|(_ & _ & H)]]; [lia|lia|]. eexists. split; [reflexivity|]. intros p Hp. replace p with 0 by lia. rewrite Z.add_0_r. apply Q. destruct H; [lia|tauto].
           ++ destruct (storage_cases (bits t) ltac:(lia)) as (_ & _ & _ & Is).
              destruct (slice_over a (bits t) (pa_sgn t) (pa_base t) (start t i) ltac:(lia) T ltac:(lia) ltac:(lia) ltac:(lia)) as (r & E & _ & Q). { intros _. rewrite hty_iw, Is. lia. }
              rewrite slice_r_any in E by (assumption || lia). destruct (Good r E Q ltac:(lia)) as [G1 G2]. split; [|exact G2]. rewrite G1. split; [|tauto]. intros _. right. right. split; [lia|]. split; [exact St|]. left. lia.
        -- rewrite (slice_past a (bits t) (pa_sgn t)) by (try apply T; lia). split; [|split; [intros _; lia|reflexivity]].
           split; [intros (r & E & _); discriminate E|]. intros [H|[H|H]]; lia.
  - assert (Zb : forall p, bit_at (vec_of (pa_base t) false 0) p = false) by (intros p; unfold bit_at; rewrite zero_num by lia; apply Z.bits_0).
    split; [|split; [discriminate|lia]]. split.
    + intros (r & E & Q). injection E as <-. intros p Hp. rewrite <- Q by exact Hp. apply Zb.
    + intros H. eexists. split; [reflexivity|]. intros p Hp. rewrite H by exact Hp. apply Zb.
Qed.

(** * an index of no element *)
Lemma wrap_neg z : - 2 ^ 64 <= z < 0 -> z mod 2 ^ 64 = z + 2 ^ 64.
Proof. intros H. replace z with (z + 2 ^ 64 + (-1) * 2 ^ 64) at 1 by lia. rewrite Z.mod_add, Z.mod_small by lia. reflexivity. Qed.
Lemma vec_of_bit n z p : 1 <= n < 2 ^ 31 -> 0 <= p < n -> 0 <= z < 2 ^ n -> bit_at (vec_of n false z) p = Z.testbit z p.
Proof. intros Hn Hp Hz. unfold bit_at. destruct (Z.eq_dec n 1) as [->|N]. { assert (z = 0 \/ z = 1) as [-> | ->] by (change (2 ^ 1) with 2 in Hz; lia); reflexivity. } rewrite Iff3.vec_of_num by lia. now rewrite Z.mod_small by lia. Qed.
(** beyond the positions there is nothing *)
Lemma slice_beyond a n m lo r : 1 <= n < 2 ^ 31 -> typed a n false -> tidy a -> 1 <= m <= n -> n <= lo < 2 ^ 63 -> any_slice_dynamic a m lo (lo + m) = Ok r -> forall p, 0 <= p < m -> bit_at r p = false.
Proof.
  intros Hn T Y Hm Hlo. assert (V : vec a) by apply T. assert (W := typed_bw a n false ltac:(lia) T). assert (Gs := typed_sgn a n false T). unfold any_slice_dynamic, small. rewrite W.
  assert (D : num a / 2 ^ lo = 0). { apply Z.div_small. pose proof (num_range a) as R. rewrite W in R. split; [lia|]. apply Z.lt_le_trans with (2 ^ n); [lia|]. apply Z.pow_le_mono_r; lia. }
  destruct (Z.leb_spec n 64) as [L|L].
  - unfold slice_dynamic. rewrite W, !(slot_of_plain a n false) by (assumption || lia). rewrite Z.min_l, Z.max_r by lia. rewrite (proj2 (Z.ltb_ge 64 m)) by lia.
    destruct (_ && _); cbn [negb]; [|discriminate]. intros E. injection E as <-. intros p Hp. assert (Ez : (if n =? 1 then if (lo =? 0) && (lo + m =? 7) then stored a else 0 else cut (bsgn a) (storage n) (stored a) lo (lo + m)) = 0).
    { destruct (Z.eqb_spec n 1). { rewrite (proj2 (Z.eqb_neq lo 0)) by lia. reflexivity. } unfold cut. rewrite Gs. cbn [andb]. replace (stored a) with (num a) by (symmetry; rewrite (tidy_stored a V Y) by lia; unfold value; now rewrite Gs). rewrite D. apply Z.mod_0_l. pose proof (pow2_pos (lo + m - lo + 1) ltac:(lia)). lia. }
    rewrite Ez. unfold bit_at. rewrite Iff3.vector_num0 by lia. apply Z.bits_0.
  - rewrite !Z.mod_small by lia. rewrite Z.min_l, Z.max_r by lia. destruct (_ =? _); [discriminate|]. intros E. injection E as <-. intros p Hp. rewrite D, Z.mod_0_l by (pose proof (pow2_pos (Z.min m (lo + m - lo + 1)) ltac:(lia)); lia).
    unfold bit_at. rewrite zero_num by lia. apply Z.bits_0.
Qed.

Lemma read4_none_iff t a op i : arr4 t a -> ltidy a -> index op i -> (lw op = 1 -> lsgn op = false) -> ~ element t i ->
  (exists r, pa_get t a op = Ok r /\ all_x r) <-> reads_nothing4 t a i.
Proof.
  intros A [Y1 Y2] Ix O El. destruct (arr4_facts t a A) as (Hb & Hn & La & T). assert (V : lvec op) by apply Ix. pose proof (elems_pos t) as He. assert (Hbn : pa_base t <= bits t) by (unfold bits; nia).
  rewrite (read4_ref t a op A V). unfold ref_read4, with_element. rewrite (index_given t op i Ix O Hn). unfold reads_nothing4.
  destruct ((0 <=? i) && (i <? bits t)) eqn:Ei.
  - assert (Hi : 0 <= i < bits t) by lia.
    assert (W4 : forall v m, mkLogic v m = mkLogic v m -> bw v = pa_base t -> all_x (mkLogic v m) -> forall p, 0 <= p < pa_base t -> bit_at m p = true).
    { intros v m _ Wv X p Hp. specialize (X p). unfold lw in X. cbn [l_val] in X. rewrite Wv in X. specialize (X Hp). unfold sym_at in X. cbn [l_val l_xz] in X. destruct (bit_at m p), (bit_at v p); cbn in X; congruence. }
    unfold element, in_range in El. set (lo := Z.min (pa_msb t) (pa_lsb t)) in *. destruct (Z.lt_ge_cases i lo) as [Low|High].
    + (* below *)
      assert (Sn : start t i <= - pa_base t) by (unfold start; fold lo; nia). destruct (Z.le_gt_cases 65 (bits t)) as [L|L].
      * assert (Sf : forall b s, typed b (bits t) s -> is_int (start t i) = true -> any_slice_dynamic b (pa_base t) (start t i) (start t i + pa_base t) =
          if i =? lo - 1 then (if pa_base t =? 1 then Fuel else Ok (vec_of (pa_base t) false (num b mod 2 ^ pa_base t)))
          else if start t i + pa_base t =? -1 then Fuel else Ok (vec_of (pa_base t) false 0)).
        { intros b s Tb Int. apply is_int_ok in Int. unfold int_ok in Int. assert (Wb := typed_bw b (bits t) s ltac:(lia) Tb). unfold any_slice_dynamic, small. rewrite Wb, (proj2 (Z.leb_gt _ _)) by lia.
          rewrite (wrap_neg (start t i)) by lia. pose proof (num_range b) as Rb. rewrite Wb in Rb. destruct (Z.eqb_spec i (lo - 1)) as [Eq|Ne].
          - assert (S1 : start t i = - pa_base t) by (unfold start; fold lo; rewrite Eq; lia). rewrite S1. replace (- pa_base t + pa_base t) with 0 by lia. rewrite Z.mod_0_l by lia. rewrite Z.min_r, Z.max_l by lia.
            destruct (Z.eqb_spec (pa_base t) 1) as [->|N1]; [reflexivity|]. rewrite (proj2 (Z.eqb_neq _ _)) by lia. rewrite Z.pow_0_r, Z.div_1_r, Z.min_l by lia. reflexivity.
          - assert (S2 : start t i <= - 2 * pa_base t) by (unfold start; fold lo; nia). rewrite (wrap_neg (start t i + pa_base t)) by lia. rewrite Z.min_l, Z.max_r by lia.
            destruct (Z.eqb_spec (start t i + pa_base t) (-1)) as [->|N1]; [reflexivity|]. rewrite (proj2 (Z.eqb_neq _ _)) by lia. rewrite Z.div_small, Z.mod_0_l; [reflexivity| |].
            + pose proof (pow2_pos (Z.min (pa_base t) (start t i + pa_base t + 2 ^ 64 - (start t i + 2 ^ 64) + 1)) ltac:(lia)). lia.
            + split; [lia|]. apply Z.lt_le_trans with (2 ^ bits t); [lia|]. apply Z.pow_le_mono_r; lia. }
        assert (Wz : forall z, bw (vec_of (pa_base t) false z) = pa_base t) by (intros z; unfold vec_of, bw; cbn; unfold width; lia).
        assert (Bz : forall b p, 0 <= p < pa_base t -> bit_at (vec_of (pa_base t) false (num b mod 2 ^ pa_base t)) p = bit_at b p).
        { intros b p Hp. rewrite vec_of_bit by (try (apply Z.mod_pos_bound, pow2_pos); lia). rewrite Z.mod_pow2_bits_low by lia. reflexivity. }
        destruct (addressable t i) eqn:Ad.
        -- assert (Ai : is_int (start t i) = true) by (apply is_int_ok, addressable_ints, Ad). unfold four_slice_dynamic, both. rewrite (Sf _ _ (proj1 T) Ai), (Sf _ _ (proj2 T) Ai).
           destruct (Z.eqb_spec i (lo - 1)) as [Eq|Ne]; [destruct (Z.eqb_spec (pa_base t) 1) as [B1|B1]|destruct (_ =? -1)]; cbn [bind].
           ++ split; [intros (r & E & _); discriminate E|]. intros [H|(_ & _ & H & _)]; [tauto|lia].
           ++ split.
              ** intros (r & E & X). injection E as <-. right. split; [exact L|]. split; [exact Eq|]. split; [lia|]. intros p Hp. specialize (X p). unfold lw in X. cbn [l_val] in X. rewrite Wz in X. specialize (X Hp).
                 rewrite <- X. unfold sym_at. cbn [l_val l_xz]. now rewrite !Bz by exact Hp.
              ** intros [H|(_ & _ & _ & H)]; [tauto|]. eexists. split; [reflexivity|]. intros p Hp. unfold lw in Hp. cbn [l_val] in Hp. rewrite Wz in Hp. rewrite <- (H p Hp). unfold sym_at. cbn [l_val l_xz]. now rewrite !Bz by exact Hp.
           ++ split; [intros (r & E & _); discriminate E|]. intros [H|(_ & H & _)]; [tauto|lia].
           ++ split.
              ** intros (r & E & X). injection E as <-. exfalso. assert (Q := W4 _ _ eq_refl (Wz 0) X 0 ltac:(lia)). unfold bit_at in Q. rewrite zero_num, Z.bits_0 in Q by lia. discriminate Q.
              ** intros [H|(_ & H & _)]; [tauto|lia].
        -- split; [intros (r & E & _); discriminate E|]. intros [H|(_ & H & _)]; [tauto|]. exfalso. revert Ad. unfold addressable, start. fold lo. rewrite H. replace (lo - 1 - lo) with (-1) by lia.
           assert (F : forall z, int_ok z -> is_int z = true) by (intros z; apply is_int_ok). rewrite !F by (unfold int_ok; lia). discriminate.
      * assert (U : forall b s, typed b (bits t) s -> any_slice_dynamic b (pa_base t) (start t i) (start t i + pa_base t) = UB).
        { intros b s Tb. assert (Wb := typed_bw b (bits t) s ltac:(lia) Tb). unfold any_slice_dynamic, small. rewrite Wb, (proj2 (Z.leb_le _ _)) by lia.
          unfold slice_dynamic. rewrite Wb, !(slot_of_plain b (bits t) s) by (assumption || lia). rewrite Z.min_l, Z.max_r by lia. rewrite (proj2 (Z.ltb_ge 64 _)) by lia. rewrite (proj2 (Z.leb_gt 0 _)) by lia. reflexivity. }
        unfold four_slice_dynamic, both. rewrite (U _ _ (proj1 T)). cbn [bind]. split; [intros (r & E & _); destruct (addressable t i); discriminate E|]. intros [H|H]; [tauto|lia].
    + (* above *)
      assert (Sn : bits t <= start t i). { unfold start, bits, elems, width. fold lo. unfold lo in *. nia. }
      split; [|intros [H|(_ & H & _)]; [tauto|lia]]. intros (r & E & X). exfalso. destruct (addressable t i) eqn:Ad; [|discriminate E].
      apply addressable_ints in Ad. unfold int_ok in Ad. unfold four_slice_dynamic, both in E. destruct (any_slice_dynamic (l_val a) _ _ _) as [v| | | |] eqn:Ev; try discriminate E. cbn [bind] in E.
      destruct (any_slice_dynamic (l_xz a) _ _ _) as [m| | | |] eqn:Em; try discriminate E. cbn [bind] in E. injection E as <-.
      assert (Q := slice_beyond (l_xz a) (bits t) (pa_base t) (start t i) m Hn (proj2 T) Y2 ltac:(lia) ltac:(lia) Em 0 ltac:(lia)).
      assert (Wv : 1 <= lw (mkLogic v m)) by apply bw_pos. specialize (X 0 ltac:(lia)). unfold sym_at in X. cbn [l_val l_xz] in X. rewrite Q in X. destruct (bit_at v 0); discriminate X.
  - split; [intros _; left; lia|]. intros _. eexists. split; [reflexivity|]. intros p Hp. apply unknown_all; [lia|]. revert Hp. unfold lw, all_unknown, vec4, object4, bw. cbn. unfold width. lia.
Qed.
Lemma vector_ones m s k : 1 <= m <= 64 -> m <= k -> num (vector m s (2 ^ k - 1)) <> 0 /\ num (vector m s (-1)) <> 0.
Proof.
  intros Hm Hk. destruct (Z.eq_dec m 1) as [->|N].
  - rewrite !vector_one. split; [|discriminate]. rewrite (proj2 (Z.eqb_neq _ _)). { discriminate. } pose proof (Z.pow_le_mono_r 2 1 k ltac:(lia) Hk). lia.
  - rewrite <- !(vec_of_small m) by lia. rewrite !Iff3.vec_of_num by lia. pose proof (Z.pow_le_mono_r 2 2 m ltac:(lia) ltac:(lia)) as P. assert (Q : (-1) mod 2 ^ m = 2 ^ m - 1) by (symmetry; apply Z.mod_unique with (-1); lia).
    rewrite Q. split; [|lia]. replace (2 ^ k - 1) with (-1 + 2 ^ (k - m) * 2 ^ m). { rewrite Z.mod_add, Q by lia. lia. } rewrite <- Z.pow_add_r by lia. replace (k - m + m) with k by lia. lia.
Qed.
Lemma num0_bits b n : bw b = n -> (num b = 0 <-> forall p, 0 <= p < n -> bit_at b p = false).
Proof.
  intros W. split; [intros Z0 p _; unfold bit_at; rewrite Z0; apply Z.bits_0|]. intros H. pose proof (num_range b) as R. rewrite W in R. apply Z.bits_inj'. intros p Hp. rewrite Z.bits_0.
  destruct (Z.lt_ge_cases p n); [apply H; lia|]. pose proof (bw_pos b). apply (Iff14.testbit_high _ n); lia.
Qed.
Lemma read2_none_iff t a op i : arr2 t a -> tidy a -> index op i -> (lw op = 1 -> lsgn op = false) -> ~ element t i ->
  (exists r, pa_get_bit t a op = Ok r /\ num r = 0) <-> reads_nothing2 t a i.
Proof.
  intros A Y Ix O El. destruct (arr2_facts t a A) as (Hb & Hn & La & T). assert (V : lvec op) by apply Ix. pose proof (elems_pos t) as He. assert (Hbn : pa_base t <= bits t) by (unfold bits; nia).
  rewrite (read2_ref t a op A V). unfold ref_read2, with_element. rewrite (index_given t op i Ix O Hn). unfold reads_nothing2. cbv zeta.
  assert (W := typed_bw a (bits t) _ ltac:(lia) T). assert (Gs := typed_sgn a _ _ T).
  destruct ((0 <=? i) && (i <? bits t)) eqn:Ei.
  - assert (Hi : 0 <= i < bits t) by lia. unfold element, in_range in El. set (lo := Z.min (pa_msb t) (pa_lsb t)) in *. set (up := Z.max (pa_msb t) (pa_lsb t)) in *.
    destruct (addressable t i) eqn:Ad; [|split; [intros (r & E & _); discriminate E|intros [H|[[H _]|[H _]]]; [tauto|discriminate H..]]].
    destruct (addressable_ints t i Ad) as [I1 I2]. unfold int_ok in I1, I2. pose proof (num_range a) as Rb. rewrite W in Rb. destruct (Z.lt_ge_cases i lo) as [Low|High].
    + assert (Sn : start t i <= - pa_base t) by (unfold start; fold lo; nia). destruct (Z.le_gt_cases 65 (bits t)) as [L|L].
      * unfold any_slice_dynamic, small. rewrite W, (proj2 (Z.leb_gt _ _)) by lia. rewrite (wrap_neg (start t i)) by lia. destruct (Z.eq_dec i (lo - 1)) as [Eq|Ne].
        -- assert (S1 : start t i = - pa_base t) by (unfold start; fold lo; rewrite Eq; lia). rewrite S1. replace (- pa_base t + pa_base t) with 0 by lia. rewrite Z.mod_0_l by lia. rewrite Z.min_r, Z.max_l by lia.
           destruct (Z.eq_dec (pa_base t) 1) as [B1|N1].
           ++ rewrite B1. change (-1 + 2 ^ 64 =? 2 ^ 64 - 1) with true. cbv iota. split; [intros (r & E & _); discriminate E|]. intros [H|[(_ & H & _)|(_ & _ & _ & H & _)]]; [tauto|lia|]. specialize (H Eq). lia.
           ++ rewrite (proj2 (Z.eqb_neq _ _)) by lia. rewrite Z.pow_0_r, Z.div_1_r, Z.min_l by lia.
              assert (Q : num (vec_of (pa_base t) false (num a mod 2 ^ pa_base t)) = 0 <-> forall p, 0 <= p < pa_base t -> bit_at a p = false).
              { rewrite (num0_bits _ (pa_base t)) by (unfold vec_of, bw; cbn; unfold width; lia). split; intros H p Hp; specialize (H p Hp); rewrite vec_of_bit in * by (try (apply Z.mod_pos_bound, pow2_pos); lia); rewrite Z.mod_pow2_bits_low in * by lia; exact H. }
              split.
              ** intros (r & E & X). injection E as <-. right. right. split; [reflexivity|]. split; [exact Low|]. split; [exact L|]. split; [intros _; split; [lia|]; apply Q, X|lia].
              ** intros [H|[(_ & H & _)|(_ & _ & _ & H & _)]]; [tauto|lia|]. eexists. split; [reflexivity|]. apply Q. apply H, Eq.
        -- assert (S2 : start t i <= - 2 * pa_base t) by (unfold start; fold lo; nia). rewrite (wrap_neg (start t i + pa_base t)) by lia. rewrite Z.min_l, Z.max_r by lia.
           assert (Ef : start t i + pa_base t + 2 ^ 64 =? 2 ^ 64 - 1 = (i =? lo - 2) && (pa_base t =? 1)).
           { destruct (Z.eqb_spec (start t i + pa_base t + 2 ^ 64) (2 ^ 64 - 1)) as [E|E]; symmetry.
             - apply andb_true_iff. rewrite !Z.eqb_eq. assert (pa_base t = 1) by nia. split; [|assumption]. unfold start in E. fold lo in E. rewrite H in E. lia.
             - apply andb_false_iff. rewrite !Z.eqb_neq. destruct (Z.eq_dec (pa_base t) 1) as [B1|]; [left|right; assumption]. intros F. apply E. unfold start. fold lo. rewrite F, B1. lia. }
           rewrite Ef. rewrite Z.div_small, Z.mod_0_l.
           ++ destruct (Z.eqb_spec i (lo - 2)) as [E2|E2], (Z.eqb_spec (pa_base t) 1) as [B1|B1]; cbn [andb].
              ** split; [intros (r & E & _); discriminate E|]. intros [H|[(_ & H & _)|(_ & _ & _ & _ & H)]]; [tauto|lia|]. specialize (H E2). lia.
              ** split; [intros _; right; right; repeat (split; [assumption || reflexivity|]); split; intros; lia|]. intros _. eexists. split; [reflexivity|]. apply zero_num. lia.
              ** split; [intros _; right; right; repeat (split; [assumption || reflexivity|]); split; intros; lia|]. intros _. eexists. split; [reflexivity|]. apply zero_num. lia.
              ** split; [intros _; right; right; repeat (split; [assumption || reflexivity|]); split; intros; lia|]. intros _. eexists. split; [reflexivity|]. apply zero_num. lia.
           ++ pose proof (pow2_pos (Z.min (pa_base t) (start t i + pa_base t + 2 ^ 64 - (start t i + 2 ^ 64) + 1)) ltac:(lia)). lia.
           ++ split; [lia|]. apply Z.lt_le_trans with (2 ^ bits t); [lia|]. apply Z.pow_le_mono_r; lia.
      * unfold any_slice_dynamic, small. rewrite W, (proj2 (Z.leb_le _ _)) by lia. unfold slice_dynamic. rewrite W, !(slot_of_plain a (bits t) (pa_sgn t)) by (assumption || lia). rewrite Z.min_l, Z.max_r by lia.
        rewrite (proj2 (Z.ltb_ge 64 _)), (proj2 (Z.leb_gt 0 _)) by lia. cbn [andb negb]. split; [intros (r & E & _); discriminate E|]. intros [H|[(_ & H & _)|(_ & _ & H & _)]]; [tauto|lia|lia].
    + assert (Hu : up < i) by lia. assert (Sn : bits t <= start t i). { unfold start, bits, elems, width. fold lo. unfold lo, up in *. nia. }
      unfold any_slice_dynamic, small. rewrite W. destruct (Z.leb_spec (bits t) 64) as [L|L].
      * unfold slice_dynamic. rewrite W, !(slot_of_plain a (bits t) (pa_sgn t)) by (assumption || lia). rewrite Z.min_l, Z.max_r by lia. rewrite (proj2 (Z.ltb_ge 64 _)), (proj2 (Z.leb_le 0 _)) by lia. cbn [andb].
        destruct (Z.eqb_spec (bits t) 1) as [One|N1].
        -- assert (B1 : pa_base t = 1) by lia. rewrite B1. rewrite (proj2 (Z.eqb_neq (start t i) 0)) by lia. cbn [andb]. destruct (Z.ltb_spec (start t i + 1) 8); cbn [negb].
           ++ split; [|intros _; eexists; split; reflexivity]. intros _. right. left. split; [reflexivity|]. split; [exact Hu|]. right. left. split; assumption.
           ++ split; [intros (r & E & _); discriminate E|]. intros [H1|[(_ & _ & [H1|[[_ H1]|[H1 _]]])|(_ & H1 & _)]]; [tauto|lia..].
        -- destruct (Z.ltb_spec (start t i + pa_base t) (storage (bits t))); cbn [negb].
           ++ assert (Sv := tidy_stored a La Y ltac:(lia)).
              assert (Cz : num (vector (pa_base t) false (cut (bsgn a) (storage (bits t)) (stored a) (start t i) (start t i + pa_base t))) = 0 <-> 0 <= value a).
              { rewrite Sv. destruct (Z.le_gt_cases 0 (value a)) as [P|P].
                - assert (D : value a / 2 ^ start t i = 0). { apply Z.div_small. rewrite <- (value_num a La P). split; [lia|]. apply Z.lt_le_trans with (2 ^ bits t); [lia|]. apply Z.pow_le_mono_r; lia. }
                  unfold cut. rewrite D, Z.mod_0_l by (pose proof (pow2_pos (start t i + pa_base t - start t i + 1) ltac:(lia)); lia). match goal with |- context [if ?c then 0 else 0] => replace (if c then 0 else 0) with 0 by (destruct c; reflexivity) end. split; [auto|intros _; apply Iff3.vector_num0; lia].
                - assert (D : value a / 2 ^ start t i = -1).
                  { symmetry. apply Z.div_unique with (value a + 2 ^ start t i); [|lia]. left. pose proof (Z.pow_le_mono_r 2 (bits t) (start t i) ltac:(lia) Sn). assert (- 2 ^ bits t <= value a).
                    { unfold value in *. destruct (bsgn a); [|lia]. pose proof (BitMain3.snum_range a) as R. rewrite W in R. pose proof (Z.pow_le_mono_r 2 (bits t - 1) (bits t) ltac:(lia) ltac:(lia)). lia. } lia. }
                  unfold cut. rewrite D. split; [|lia]. intros X. exfalso. revert X. destruct (bsgn a && (start t i + pa_base t =? storage (bits t) - 1)); [apply (vector_ones (pa_base t) false (pa_base t)); lia|].
                  replace (start t i + pa_base t - start t i + 1) with (pa_base t + 1) by lia. replace ((-1) mod 2 ^ (pa_base t + 1)) with (2 ^ (pa_base t + 1) - 1). { apply (vector_ones (pa_base t) false (pa_base t + 1)); lia. }
                  pose proof (pow2_pos (pa_base t + 1) ltac:(lia)). apply Z.mod_unique with (-1); lia. }
              split.
              ** intros (r & E & X). injection E as <-. right. left. split; [reflexivity|]. split; [exact Hu|]. right. right. split; [lia|]. split; [assumption|]. apply Cz, X.
              ** intros [H1|[(_ & _ & [H1|[[H1 _]|(_ & _ & H1)]])|(_ & H1 & _)]]; [tauto|lia|lia| |lia]. eexists. split; [reflexivity|]. apply Cz, H1.
           ++ split; [intros (r & E & _); discriminate E|]. intros [H1|[(_ & _ & [H1|[[H1 _]|(_ & H1 & _)]])|(_ & H1 & _)]]; [tauto|lia..].
      * rewrite !Z.mod_small by lia. rewrite Z.min_l, Z.max_r by lia. rewrite (proj2 (Z.eqb_neq _ _)) by lia.
        split; [intros _; right; left; split; [reflexivity|]; split; [exact Hu|]; left; lia|]. intros _. eexists. split; [reflexivity|]. rewrite Z.div_small, Z.mod_0_l; [apply zero_num; lia| |].
        -- pose proof (pow2_pos (Z.min (pa_base t) (start t i + pa_base t - start t i + 1)) ltac:(lia)). lia.
        -- split; [lia|]. apply Z.lt_le_trans with (2 ^ bits t); [lia|]. apply Z.pow_le_mono_r; lia.
  - split; [intros _; left; lia|]. intros _. eexists. split; [reflexivity|]. apply zero_num. lia.
Qed.
