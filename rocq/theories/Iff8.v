(** Exactly when == and the order are right. *)
From Coq Require Import ZArith List Bool Lia.
From Verif Require Exact.
From Verif Require Import Cpp BigNum Bit Spec SpecExact SpecMachine SpecWide SpecIff BitExt BitOps ZBits Words BigNumProofs BitProofs BitCmp BitShift BitMain BitMain2 BitMain5 MachineProofs ReachProofs WideProofs WideProofs2 WideProofs3 WideProofs4 LogicRed Iff2 Iff3 Iff4 Iff5 Iff6 Iff7.
Import ListNotations.
Open Scope Z_scope.
Local Ltac Zify.zify_post_hook ::= idtac.

(** * hollow numbers *)
Lemma hollow_split z : 0 <= z -> hollow z <-> z mod 2 ^ 32 = 0 /\ hollow (z / 2 ^ 64).
Proof.
  intros Hz. unfold hollow. split.
  - intros H. split.
    + apply Z.bits_inj'. intros p Hp. rewrite Z.bits_0. destruct (Z.lt_ge_cases p 32); [|apply Z.mod_pow2_bits_high; lia]. rewrite Z.mod_pow2_bits_low by lia. apply H; [lia|]. rewrite Z.mod_small; lia.
    + intros p Hp Q. rewrite Z.div_pow2_bits by lia. apply H; [lia|]. replace (p + 64) with (p + 1 * 64) by lia. rewrite Z.mod_add by lia. exact Q.
  - intros [L H] p Hp Q. destruct (Z.lt_ge_cases p 64) as [G|G].
    + rewrite Z.mod_small in Q by lia. rewrite <- (Z.mod_pow2_bits_low z 32) by lia. rewrite L. apply Z.bits_0.
    + replace p with ((p - 64) + 64) by lia. rewrite <- Z.div_pow2_bits by lia. apply H; [lia|]. replace p with ((p - 64) + 1 * 64) in Q by lia. rewrite Z.mod_add in Q by lia. exact Q.
Qed.
Lemma hollow_0 : hollow 0. Proof. intros p _ _. apply Z.bits_0. Qed.
Lemma blank_hollow k : forall z, 0 <= z < 2 ^ (64 * Z.of_nat k) -> blank (spread k z) = true <-> hollow z.
Proof.
  induction k as [|k IH]; intros z Hz.
  - cbn in Hz. assert (z = 0) as -> by (change (2 ^ 0) with 1 in Hz; lia). split; [intros _; exact hollow_0|reflexivity].
  - cbn [spread blank forallb]. rewrite andb_true_iff, Z.eqb_eq, hollow_split by lia. fold (blank (spread k (z / 2 ^ 64))). rewrite IH.
    + assert (E : (z mod 2 ^ 64) mod 2 ^ 32 = z mod 2 ^ 32); [|now rewrite E]. change (2 ^ 64) with (2 ^ 32 * 2 ^ 32). rewrite Z.rem_mul_r by lia. rewrite Z.mul_comm, Z.mod_add, Z.mod_mod by lia. reflexivity.
    + split; [apply Z.div_pos; lia|]. apply Z.div_lt_upper_bound; [lia|]. rewrite <- Z.pow_add_r by lia. replace (64 + 64 * Z.of_nat k) with (64 * Z.of_nat (S k)) by lia. lia.
Qed.
Lemma skipn_spread j : forall k z, (j <= k)%nat -> skipn j (spread k z) = spread (k - j) (z / 2 ^ (64 * Z.of_nat j)).
Proof.
  induction j as [|j IH]; intros k z L.
  - change (2 ^ (64 * Z.of_nat 0)) with 1. rewrite Z.div_1_r, Nat.sub_0_r. reflexivity.
  - destruct k as [|k]; [lia|]. cbn [spread skipn]. rewrite IH by lia. cbn [Nat.sub]. f_equal. rewrite Z.div_div by (pose proof (pow2_pos (64 * Z.of_nat j)); lia). rewrite <- Z.pow_add_r by lia. f_equal. f_equal. lia.
Qed.
Lemma skip_hollow n z k : 1 <= n -> 0 <= k <= words_in n -> 0 <= z < 2 ^ capacity n -> blank (skipn (Z.to_nat k) (words_of n z)) = true <-> hollow (z / 2 ^ (64 * k)).
Proof.
  intros Hn Hk Hz. unfold words_of. rewrite skipn_spread by lia. rewrite Z2Nat.id by lia. apply blank_hollow. rewrite <- Z2Nat.inj_sub, Z2Nat.id by lia. split; [apply Z.div_pos; [lia|apply pow2_pos; lia]|].
  apply Z.div_lt_upper_bound; [apply pow2_pos; lia|]. rewrite <- Z.pow_add_r by lia. replace (64 * k + 64 * (words_in n - k)) with (capacity n) by (unfold capacity; lia). lia.
Qed.
Lemma seems_small_hollow n z : 65 <= n -> 0 <= z < 2 ^ capacity n -> seems_small n z = true <-> hollow (z / 2 ^ 64).
Proof.
  intros Hn Hz. unfold seems_small. assert (E : tl (words_of n z) = skipn (Z.to_nat 1) (words_of n z)) by (destruct (words_of n z); reflexivity). rewrite E. rewrite skip_hollow; [reflexivity|lia| |exact Hz]. split; [lia|]. unfold words_in. apply Z.div_le_lower_bound; lia.
Qed.
Lemma seems_zero_hollow n z : 65 <= n -> 0 <= z < 2 ^ capacity n -> seems_zero n z = true <-> hollow z.
Proof. intros Hn Hz. unfold seems_zero, words_of. apply blank_hollow. rewrite Z2Nat.id by (unfold words_in; apply Z.div_pos; lia). exact Hz. Qed.
Lemma capacity_ge n : 1 <= n -> n <= capacity n.
Proof. intros H. unfold capacity, words_in. pose proof (Z.div_mod (n + 63) 64 ltac:(lia)). pose proof (Z.mod_pos_bound (n + 63) 64 ltac:(lia)). lia. Qed.

(** tidy vectors that are unsigned or wide store their number *)
Lemma stored_num b : vec b -> tidy b -> bsgn b = false \/ 65 <= bw b -> stored b = num b.
Proof.
  intros V D [S|G]; [symmetry; now apply num_of_tidy|]. destruct (vec_cases b V) as [(v & _ & X & _)|(ws & Ev & _ & _ & Sv)]; [lia|]. unfold tidy in D. rewrite Ev in D. unfold num. rewrite Sv. symmetry. apply Z.mod_small. lia.
Qed.

(** == *)
Lemma eqb_false_iff (P : Prop) x y : (P -> x = y) -> ((x =? y) = false -> ~ P).
Proof. intros H E p. apply Z.eqb_neq in E. auto. Qed.
Lemma ok_eqb (c : bool) (P : Prop) x y : (c = true <-> P) -> (x = y -> P) -> (Ok c = Ok (x =? y) <-> (P -> x = y)).
Proof.
  intros H I. split.
  - intros E p. apply H in p. rewrite p in E. injection E as E. symmetry in E. now apply Z.eqb_eq.
  - intros Q. f_equal. destruct c.
    + symmetry. apply Z.eqb_eq, Q, H. reflexivity.
    + symmetry. apply Z.eqb_neq. intros E. apply I, H in E. discriminate.
Qed.
Lemma eq_iff a b : vec a -> vec b -> tidy a -> tidy b -> bsgn a = false -> bsgn b = false ->
  bit_eq a b = Ok (num a =? num b) <-> num a = num b \/ ~ confused a b.
Proof.
  intros Va Vb Ta Tb Sa Sb. pose proof (num_range a) as Ra. pose proof (num_range b) as Rb. pose proof (stored_num a Va Ta (or_introl Sa)) as Na. pose proof (stored_num b Vb Tb (or_introl Sb)) as Nb. pose proof (bw_pos a) as Pa. pose proof (bw_pos b) as Pb.
  rewrite eq_any by assumption. unfold any_equal, small, equal_native, both_signed. rewrite Sa, Sb, Na, Nb. cbn [andb].
  assert (I : forall (P : Prop) (c : bool), (c = true <-> P) -> (num a = num b -> P) -> (P <-> confused a b \/ num a = num b) -> Ok c = Ok (num a =? num b) <-> num a = num b \/ ~ confused a b).
  { intros P c H J K. rewrite (ok_eqb c P) by assumption. destruct (Z.eq_dec (num a) (num b)) as [E|E]; [split; auto|]. split; [intros Q; right; intros C; apply E, Q, K; now left|intros [Q|Q] p; [exact Q|]; apply K in p; destruct p; [contradiction|assumption]]. }
  unfold confused. destruct (Z.leb_spec (bw a) 64) as [Ga|Ga], (Z.leb_spec (bw b) 64) as [Gb|Gb]; cbn [andb].
  - unfold store. destruct (Z.eqb_spec (bw a) 1) as [E1|E1].
    + apply (I (num a = if num b =? 0 then 0 else 1)); [apply Z.eqb_eq| |]; rewrite E1 in Ra; change (2 ^ 1) with 2 in Ra; destruct (Z.eqb_spec (num b) 0).
      * lia.
      * lia.
      * split; [lia|]. intros [[C|[C|C]]|C]; lia.
      * split; [|intros [[C|[C|C]]|C]; lia]. intros C. destruct (Z.eq_dec (num b) 1); [lia|]. left; left. lia.
    + unfold wrap. apply (I (num a = num b mod 2 ^ storage (bw a))); [apply Z.eqb_eq| |].
      * intros E. rewrite <- E. symmetry. apply Z.mod_small. destruct (storage_pow (bw a) ltac:(lia)) as (P1 & _). assert (2 ^ bw a <= 2 ^ storage (bw a)) by (apply Z.pow_le_mono_r; lia). lia.
      * split; [intros E; left; right; left; repeat split; try lia|]. intros [[C|[(_ & _ & C)|C]]|E]; [lia|symmetry; exact C|lia|]. rewrite <- E. symmetry. apply Z.mod_small. destruct (storage_pow (bw a) ltac:(lia)) as (P1 & _). assert (2 ^ bw a <= 2 ^ storage (bw a)) by (apply Z.pow_le_mono_r; lia). lia.
  - assert (2 ^ bw a <= 2 ^ 64) by (apply Z.pow_le_mono_r; lia). rewrite (Z.mod_small (num a)) by lia. split; [intros _|intros _; f_equal; apply Z.eqb_sym]. destruct (Z.eq_dec (num a) (num b)); [now left|right]. intros [C|[C|C]]; lia.
  - assert (2 ^ bw b <= 2 ^ 64) by (apply Z.pow_le_mono_r; lia). rewrite (Z.mod_small (num b)) by lia. split; [intros _|reflexivity]. destruct (Z.eq_dec (num a) (num b)); [now left|right]. intros [C|[C|C]]; lia.
  - cbn zeta. fold (words_in (bw a)) (words_in (bw b)) in *. unfold common. fold (words_in (bw a)) (words_in (bw b)). set (k := Z.min (words_in (bw a)) (words_in (bw b))).
    assert (Wa : 1 <= words_in (bw a)) by (unfold words_in; apply Z.div_le_lower_bound; lia). assert (Wb : 1 <= words_in (bw b)) by (unfold words_in; apply Z.div_le_lower_bound; lia).
    assert (Ca : 0 <= num a < 2 ^ capacity (bw a)). { pose proof (capacity_ge (bw a) Pa). assert (2 ^ bw a <= 2 ^ capacity (bw a)) by (apply Z.pow_le_mono_r; lia). lia. }
    assert (Cb : 0 <= num b < 2 ^ capacity (bw b)). { pose proof (capacity_ge (bw b) Pb). assert (2 ^ bw b <= 2 ^ capacity (bw b)) by (apply Z.pow_le_mono_r; lia). lia. }
    assert (X : num a = num b -> hollow (num a / 2 ^ (64 * k)) /\ hollow (num b / 2 ^ (64 * k))). { intros E. rewrite <- E. assert (Z0 : num a / 2 ^ (64 * k) = 0); [|rewrite Z0; split; exact hollow_0]. apply Z.div_small. split; [lia|]. unfold capacity in *. destruct (Z.min_spec (words_in (bw a)) (words_in (bw b))) as [[_ Q]|[_ Q]]; unfold k; rewrite Q; lia. }
    apply (I (num a mod 2 ^ (64 * k) = num b mod 2 ^ (64 * k) /\ hollow (num a / 2 ^ (64 * k)) /\ hollow (num b / 2 ^ (64 * k)))).
    + rewrite !andb_true_iff, Z.eqb_eq, !skip_hollow by lia. tauto.
    + intros E. split; [now rewrite E|auto].
    + split; [intros H; left; right; right; repeat split; tauto || lia|]. intros [[C|[C|C]]|E]; [lia|lia|tauto|]. split; [now rewrite E|auto].
Qed.
Lemma hollow_dec z : 0 <= z -> hollow z \/ ~ hollow z.
Proof.
  intros Hz. set (k := Z.to_nat (Z.log2 z + 1)). assert (R : 0 <= z < 2 ^ (64 * Z.of_nat k)). { split; [lia|]. destruct (Z.eq_dec z 0) as [-> |]; [apply pow2_pos; lia|]. pose proof (Z.log2_nonneg z). apply Z.log2_lt_pow2; lia. }
  pose proof (blank_hollow k z R) as B. destruct (blank (spread k z)); [left; now apply B|right; intros H; apply B in H; discriminate].
Qed.
Lemma confused_dec a b : confused a b \/ ~ confused a b.
Proof.
  unfold confused. pose proof (num_range a) as Ra. pose proof (num_range b) as Rb. assert (C : 0 <= common a b). { unfold common. pose proof (bw_pos a). pose proof (bw_pos b). assert (0 <= (bw a + 63) / 64) by (apply Z.div_pos; lia). assert (0 <= (bw b + 63) / 64) by (apply Z.div_pos; lia). lia. }
  pose proof (hollow_dec (num a / 2 ^ common a b) (Z.div_pos _ _ (proj1 Ra) (pow2_pos _ C))) as Ha. pose proof (hollow_dec (num b / 2 ^ common a b) (Z.div_pos _ _ (proj1 Rb) (pow2_pos _ C))) as Hb.
  assert (D1 : {bw a = 1 /\ bw b <= 64 /\ num a = 1 /\ 2 <= num b} + {~ (bw a = 1 /\ bw b <= 64 /\ num a = 1 /\ 2 <= num b)}). { destruct (Z.eq_dec (bw a) 1), (Z_le_dec (bw b) 64), (Z.eq_dec (num a) 1), (Z_le_dec 2 (num b)); tauto. }
  destruct (Z.eq_dec (num a mod 2 ^ common a b) (num b mod 2 ^ common a b)), (Z.eq_dec (num b mod 2 ^ storage (bw a)) (num a)), (Z_le_dec 2 (bw a)), (Z_le_dec (bw a) 64), (Z_le_dec (bw b) 64), (Z_le_dec 65 (bw a)), (Z_le_dec 65 (bw b)); tauto.
Qed.
(** order of unsigned vectors *)
Lemma unsigned_64 b : bw b <= 64 -> num b mod 2 ^ 64 = num b.
Proof. intros L. apply Z.mod_small. pose proof (num_range b). assert (2 ^ bw b <= 2 ^ 64) by (apply Z.pow_le_mono_r; lia). lia. Qed.
Lemma order_iff a b : vec a -> vec b -> tidy a -> tidy b -> bsgn a = false -> bsgn b = false ->
  (bit_gt a b = Ok (num b <? num a) <-> (bw a <= 64 <-> bw b <= 64)) /\ (bit_lt a b = Ok (num a <? num b) <-> (bw a <= 64 <-> bw b <= 64)).
Proof.
  intros Va Vb Ta Tb Sa Sb. pose proof (stored_num a Va Ta (or_introl Sa)) as Na. pose proof (stored_num b Vb Tb (or_introl Sb)) as Nb.
  rewrite gt_any, lt_any by assumption. unfold any_greater, any_less, any_order, small, ordered, wide_greater, both_signed. rewrite Sa, Sb, Na, Nb. cbn [andb].
  destruct (Z.leb_spec (bw a) 64) as [Ga|Ga], (Z.leb_spec (bw b) 64) as [Gb|Gb]; rewrite ?unsigned_64, ?Z.gtb_ltb by assumption; repeat split; try reflexivity; try lia; discriminate.
Qed.
Lemma eq_sound a b : vec a -> vec b -> tidy a -> tidy b -> bsgn a = false -> bsgn b = false ->
  exists e, any_equal a b = Ok e /\ (e = true <-> num a = num b \/ confused a b /\ num a <> num b).
Proof.
  intros Va Vb Ta Tb Sa Sb. pose proof (eq_iff a b Va Vb Ta Tb Sa Sb) as H. rewrite eq_any in H by assumption.
  assert (exists e, any_equal a b = Ok e) as [e E]. { unfold any_equal, both_signed. rewrite Sa. cbn [andb]. destruct (small a && small b), (small a), (small b); eauto. }
  exists e. split; [exact E|]. rewrite E in H. destruct (Z.eqb_spec (num a) (num b)) as [Q|Q].
  - assert (X : Ok e = Ok true) by (apply H; now left). injection X as ->. intuition.
  - destruct e.
    + split; [intros _|reflexivity]. right. split; [|exact Q].
      assert (K : ~ (Ok true = Ok false)) by discriminate. rewrite H in K. unfold confused in *. clear H E. assert (D : ~ ~ confused a b) by tauto.
      unfold confused in D. pose proof (confused_dec a b) as [C|C]; [exact C|contradiction].
    + assert (X : num a = num b \/ ~ confused a b) by now apply H. split; [discriminate|]. tauto.
Qed.
Lemma greater_equal_iff a b : vec a -> vec b -> tidy a -> tidy b -> bsgn a = false -> bsgn b = false -> 65 <= bw a -> 65 <= bw b ->
  wide_greater_equal a b = Ok (num b <=? num a) <-> num b <= num a \/ ~ confused a b.
Proof.
  intros Va Vb Ta Tb Sa Sb Ga Gb. destruct (eq_sound a b Va Vb Ta Tb Sa Sb) as (e & E & He). unfold wide_greater_equal, wide_greater, both_signed. rewrite E, Sa, (stored_num a), (stored_num b) by auto. cbn [andb].
  destruct (Z.ltb_spec (num b) (num a)), (Z.leb_spec (num b) (num a)), e; cbn [orb]; try (exfalso; lia).
  - split; [intros _; left; lia|reflexivity].
  - split; [intros _; left; lia|reflexivity].
  - split; [intros _; left; lia|reflexivity].
  - split; [discriminate|]. intros [X|X]; [lia|]. assert (num a = num b \/ confused a b /\ num a <> num b) as [Q|Q] by now apply He. { lia. } tauto.
  - split; [|reflexivity]. intros _. right. intros C. assert (false = true); [|discriminate]. apply He. right. split; [exact C|lia].
Qed.
Lemma order_equal_iff a b : vec a -> vec b -> tidy a -> tidy b -> bsgn a = false -> bsgn b = false ->
  (bit_ge a b = Ok (num b <=? num a) <-> (bw a <= 64 /\ bw b <= 64) \/ (65 <= bw a /\ 65 <= bw b /\ (num b <= num a \/ ~ confused a b))) /\
  (bit_le a b = Ok (num a <=? num b) <-> (bw a <= 64 /\ bw b <= 64) \/ (65 <= bw a /\ 65 <= bw b /\ (num a <= num b \/ ~ confused b a))).
Proof.
  intros Va Vb Ta Tb Sa Sb. rewrite ge_any, le_any by assumption. unfold any_greater_equal, any_less_equal, any_order, small, ordered, both_signed. rewrite Sa, (stored_num a), (stored_num b) by auto. cbn [andb].
  destruct (Z.leb_spec (bw a) 64) as [Ga|Ga], (Z.leb_spec (bw b) 64) as [Gb|Gb].
  - rewrite !unsigned_64, Z.geb_leb by assumption. split; (split; [intros _; left; lia|reflexivity]).
  - split; (split; [discriminate|intros [H|H]; lia]).
  - split; (split; [discriminate|intros [H|H]; lia]).
  - rewrite !greater_equal_iff by (assumption || lia). split; (split; [intros H; right; repeat split; (lia || exact H)|intros [H|H]; [lia|apply H]]).
Qed.
(** order of signed vectors *)
Lemma signed_stored b : vec b -> tidy b -> bsgn b = true -> 2 <= bw b <= 64 -> stored b = snum b.
Proof. intros V D S H. rewrite tidy_stored by assumption. unfold value. now rewrite S. Qed.
Lemma snum_range b : - 2 ^ (bw b - 1) <= snum b < 2 ^ (bw b - 1) /\ (snum b < 0 -> num b = snum b + 2 ^ bw b) /\ (0 <= snum b -> num b = snum b).
Proof.
  pose proof (num_range b) as R. pose proof (bw_pos b) as P. pose proof (pow_double (bw b) P) as D. pose proof (twos_range (bw b) (num b) P R) as T. unfold snum, twos in *. destruct (Z.testbit (num b) (bw b - 1)); lia.
Qed.
Lemma wide_magnitude b : 65 <= bw b -> snum b < 0 -> (- num b) mod 2 ^ capacity (bw b) = magnitude b.
Proof.
  intros G N. destruct (snum_range b) as (R & E & _). rewrite (E N). pose proof (pow_double (bw b) ltac:(lia)). pose proof (pow2_pos (bw b - 1) ltac:(lia)). pose proof (capacity_ge (bw b) ltac:(lia)). assert (2 ^ bw b <= 2 ^ capacity (bw b)) by (apply Z.pow_le_mono_r; lia).
  rewrite <- (Z.mod_add _ 1) by lia. rewrite Z.mod_small by lia. unfold magnitude. fold (words_in (bw b)) (capacity (bw b)). lia.
Qed.
Lemma smallest_iff b : smallest b = true <-> least b.
Proof.
  unfold smallest, least. rewrite Z.eqb_eq. pose proof (snum_range b) as (R & N & P). pose proof (pow_double (bw b) (bw_pos b)). pose proof (pow2_pos (bw b - 1) ltac:(pose proof (bw_pos b); lia)). split; intros H1.
  - destruct (Z.lt_ge_cases (snum b) 0) as [X|X]; [rewrite (N X) in H1; lia|rewrite (P X) in H1; lia].
  - rewrite N by lia. lia.
Qed.
Lemma signed_order_iff a b : vec a -> vec b -> tidy a -> tidy b -> bsgn a = true -> bsgn b = true -> 2 <= bw a -> 2 <= bw b ->
  bit_gt a b = Ok (snum b <? snum a) <->
  (bw a <= 64 /\ bw b <= 64) \/
  (65 <= bw a /\ 65 <= bw b /\ (0 <= snum a \/ 0 <= snum b \/ (least a /\ ~ least b /\ snum b < snum a) \/ (~ least a /\ least b /\ snum a <= snum b) \/
     (~ least a /\ ~ least b /\ (magnitude a < magnitude b <-> snum b < snum a)))).
Proof.
  intros Va Vb Ta Tb Sa Sb La Lb. rewrite gt_any by assumption. unfold any_greater, any_order, small, ordered, wide_greater, both_signed. rewrite Sa, Sb. cbn [andb].
  destruct (Z.leb_spec (bw a) 64) as [Ga|Ga], (Z.leb_spec (bw b) 64) as [Gb|Gb].
  - rewrite !signed_stored, Z.gtb_ltb by (assumption || lia). split; [intros _; left; lia|reflexivity].
  - split; [discriminate|intros [H|H]; lia].
  - split; [discriminate|intros [H|H]; lia].
  - rewrite !stored_num by (auto; lia). destruct (snum_range a) as (Ra & Na & Pa), (snum_range b) as (Rb & Nb & Pb).
    destruct (Z.ltb_spec (snum a) 0) as [A|A], (Z.ltb_spec (snum b) 0) as [B|B]; cbn [andb].
    + destruct (smallest a) eqn:Ma, (smallest b) eqn:Mb.
      * apply smallest_iff in Ma, Mb. split; [discriminate|]. intros [X|(_ & _ & [X|[X|[X|[X|X]]]])]; lia || tauto.
      * apply smallest_iff in Ma. assert (M : ~ least b) by (rewrite <- smallest_iff, Mb; discriminate). destruct (Z.ltb_spec (snum b) (snum a)); (split; [discriminate || (intros _; right; repeat split; [lia|lia|tauto])|]); [reflexivity|]. intros [X|(_ & _ & [X|[X|[X|[X|X]]]])]; lia || tauto.
      * apply smallest_iff in Mb. assert (M : ~ least a) by (rewrite <- smallest_iff, Ma; discriminate). destruct (Z.ltb_spec (snum b) (snum a)); (split; [discriminate || (intros _; right; repeat split; [lia|lia|right; right; right; left; repeat split; assumption || lia])|]); [|reflexivity]. intros [X|(_ & _ & [X|[X|[X|[X|X]]]])]; lia || tauto.
      * assert (M1 : ~ least a) by (rewrite <- smallest_iff, Ma; discriminate). assert (M2 : ~ least b) by (rewrite <- smallest_iff, Mb; discriminate). rewrite !wide_magnitude by (lia || assumption).
        destruct (Z.ltb_spec (magnitude a) (magnitude b)), (Z.ltb_spec (snum b) (snum a)); split; try discriminate; try reflexivity; try (intros _; right; repeat split; [lia|lia|right; right; right; right; repeat split; assumption || lia]);
          intros [X|(_ & _ & [X|[X|[X|[X|X]]]])]; lia || tauto.
    + replace (snum b <? snum a) with false by lia. split; [intros _; right; repeat split; lia|reflexivity].
    + replace (snum b <? snum a) with true by lia. split; [intros _; right; repeat split; lia|reflexivity].
    + rewrite Pa, Pb by lia. split; [intros _; right; repeat split; lia|reflexivity].
Qed.
