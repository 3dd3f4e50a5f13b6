(** Evaluating a polynomial. *)
From Coq Require Import ZArith List Bool Lia.
From Verif Require Import Cpp ZBits BigNum Bit Logic Spec SpecExact SpecMachine SpecWide SpecIff Client SpecProg SpecDigits Digits Horner BitProofs BitExt BitMain LogicMain Iff3 Iff25 ProgExact SaturateProofs DigitsProofs.
From Verif Require Iff17.
Import ListNotations.
Open Scope Z_scope.
Local Ltac Zify.zify_post_hook ::= idtac.

Lemma small_low n z : 65 <= n -> 0 <= z < 2 ^ 64 -> seems_small n z = true.
Proof.
  intros N Z. assert (2 ^ 64 <= 2 ^ n) by (apply Z.pow_le_mono_r; lia). apply Iff17.small_hollow; [lia|lia|]. rewrite Z.div_small by lia. intros p _ _. apply Z.bits_0.
Qed.
Lemma horner_step n x b y : 2 <= n < 2 ^ 31 -> 0 <= x < 2 ^ n -> 0 <= b < 2 ^ n -> 0 <= y -> x * b + y < 2 ^ n -> n <= 64 \/ x < 2 ^ 64 /\ b < 2 ^ 64 ->
  (let! p := bit_mul (vec_of n false x) (vec_of n false b) in bit_add p (vec_of n false y)) = Ok (vec_of n false (x * b + y)).
Proof.
  intros Hn X B Y S C. pose proof (room_le n ltac:(lia)) as R. assert (M : 0 <= x * b) by nia. rewrite k_mul by lia.
  assert (K : kept_product n x b = Ok (x * b)).
  { unfold kept_product. destruct (Z.leb_spec n 64) as [L|L].
    - assert (Q : (n <=? 16) && (2 ^ 31 <=? x * b) = false). { destruct (Z.leb_spec n 16) as [L'|L']; [|reflexivity]. cbn [andb]. assert (2 ^ n <= 2 ^ 16) by (apply Z.pow_le_mono_r; lia). assert (2 ^ 16 < 2 ^ 31) by reflexivity. lia. }
      rewrite Q, Z.mod_small by lia. reflexivity.
    - destruct C as [C|[C1 C2]]; [lia|]. rewrite !small_low by lia. cbn [andb]. rewrite (Z.mod_small x), (Z.mod_small b) by lia. rewrite Z.mod_small by lia. reflexivity. }
  rewrite K. cbn [omap bind]. rewrite k_add by lia. rewrite Z.mod_small by lia. reflexivity.
Qed.
Lemma digits_pos b cs : 0 <= b -> 0 <= digits_num b cs.
Proof. intros B. induction cs as [|c cs IH]; cbn [digits_num]; [lia|]. pose proof (num_range c). nia. Qed.
Lemma le_times b x : 1 <= b -> 0 <= x -> x <= b * x.
Proof. nia. Qed.
Lemma horner_ok n zero d : 2 <= n -> typed zero n false -> tidy zero -> num zero = 0 -> typed d n false -> tidy d -> 1 <= num d ->
  forall cs, (forall c, In c cs -> typed c n false /\ tidy c) -> digits_num (num d) cs < 2 ^ n -> n <= 64 \/ num d < 2 ^ 64 /\ digits_num (num d) (tl cs) < 2 ^ 64 ->
  horner zero d cs = Ok (vec_of n false (digits_num (num d) cs)).
Proof.
  intros Hn O To Eo D Td Pd. pose proof (typed_lt d n false ltac:(lia) D) as Lt. destruct (tidy_state n d ltac:(lia) D Td) as [ED RD]. destruct (tidy_state n zero ltac:(lia) O To) as [EO _]. rewrite Eo in EO.
  induction cs as [|c cs IH]; intros I V C; [cbn [horner digits_num]; rewrite EO; reflexivity|]. cbn [horner]. cbn [digits_num] in V |- *. cbn [tl] in C. destruct (I c (or_introl eq_refl)) as [Tc Dc]. destruct (tidy_state n c ltac:(lia) Tc Dc) as [EC RC].
  pose proof (digits_pos (num d) cs ltac:(lia)) as P. assert (L : digits_num (num d) cs < 2 ^ n). { pose proof (le_times (num d) (digits_num (num d) cs) Pd P). lia. } rewrite IH.
  - cbn [bind]. remember (num c) as y eqn:HY. remember (num d) as b eqn:HB. rewrite EC, ED. rewrite horner_step; [do 2 f_equal; ring|lia|lia|lia|lia|lia|].
    destruct C as [C|[C1 C2]]; [left; exact C|right; split; assumption].
  - intros x Hx. apply I. right. exact Hx.
  - exact L.
  - destruct C as [C|[C1 C2]]; [left; exact C|right]. split; [exact C1|]. destruct cs as [|c' cs']; [cbn; reflexivity|]. cbn [tl]. cbn [digits_num] in C2. pose proof (digits_pos (num d) cs' ltac:(lia)) as P'. pose proof (num_range c'). pose proof (le_times (num d) _ Pd P'). lia.
Qed.
Lemma horner_all n zero d cs : 2 <= n -> typed zero n false -> tidy zero -> num zero = 0 -> typed d n false -> tidy d -> 1 <= num d -> (forall c, In c cs -> typed c n false /\ tidy c) ->
  digits_num (num d) cs < 2 ^ n -> n <= 64 \/ num d < 2 ^ 64 /\ digits_num (num d) (tl cs) < 2 ^ 64 -> exists r, horner zero d cs = Ok r /\ typed r n false /\ tidy r /\ num r = digits_num (num d) cs.
Proof.
  intros Hn O To Eo D Td Pd I V C. pose proof (typed_lt d n false ltac:(lia) D) as Lt. eexists. split; [apply horner_ok; eassumption|]. apply kept_tidy; [lia|]. split; [apply digits_pos; lia|exact V].
Qed.
(** a power that is in the way *)
Lemma horner_wrong n b z : 2 <= n < 2 ^ 31 -> 1 <= b < 2 ^ 32 -> 65 <= n -> b * z < 2 ^ n -> (z = 2 ^ 64 /\ n <= 128) \/ z = 2 ^ 96 -> horner (vec_of n false 0) (vec_of n false b) [vec_of n false 0; vec_of n false z] = Ok (vec_of n false (b * z)) -> False.
Proof.
  intros Hn Hb N V C. pose proof (room_le n ltac:(lia)) as R. assert (P64 : 2 ^ 64 <= 2 ^ n) by (apply Z.pow_le_mono_r; lia). assert (P32 : 2 ^ 32 < 2 ^ 64) by reflexivity. assert (Z0 : 0 < z < 2 ^ n). { assert (0 < 2 ^ 64) by reflexivity. assert (0 < 2 ^ 96) by reflexivity. assert (0 < z) by (destruct C as [[-> _]| ->]; reflexivity). nia. }
  cbn [horner bind]. rewrite k_mul by lia. assert (K0 : kept_product n 0 b = Ok 0). { unfold kept_product. replace (n <=? 64) with false by lia. rewrite !small_low by lia. cbn [andb]. change (0 mod 2 ^ 64) with 0. rewrite Z.mul_0_l, Z.mod_0_l by lia. reflexivity. }
  rewrite K0. cbn [omap bind]. rewrite k_add by lia. rewrite Z.add_0_l, Z.mod_small by lia. cbn [bind]. rewrite k_mul by lia. destruct C as [[-> L]| ->].
  - assert (S : seems_small n (2 ^ 64) = false). { destruct (seems_small n (2 ^ 64)) eqn:S; [|reflexivity]. apply Iff17.small_hollow in S; [|lia|lia]. specialize (S 0 ltac:(lia) ltac:(reflexivity)). discriminate S. }
    unfold kept_product. replace (n <=? 64) with false by lia. rewrite S. cbn [andb]. change (2 ^ 64 =? 0) with false. replace (b =? 0) with false by lia. cbn [orb]. change (Z.log2 (2 ^ 64) / 64) with 1.
    assert (Lb : 0 <= Z.log2 b / 64) by (apply Z.div_pos; [apply Z.log2_nonneg|reflexivity]). assert (W : words_in n <= 2). { unfold words_in. assert ((n + 63) / 64 < 3) by (apply Z.div_lt_upper_bound; lia). lia. }
    destruct (Z.ltb_spec (1 + Z.log2 b / 64 + 1) (words_in n)) as [Q|Q]; [lia|]. discriminate.
  - assert (S : seems_small n (2 ^ 96) = true). { apply Iff17.small_hollow; [lia|lia|]. change (2 ^ 96 / 2 ^ 64) with (2 ^ 32). intros p Hp Hq. rewrite Z.pow2_bits_false; [reflexivity|]. intros Q. subst p. vm_compute in Hq. discriminate. }
    unfold kept_product. replace (n <=? 64) with false by lia. rewrite S, small_low by lia. cbn [andb]. change (2 ^ 96 mod 2 ^ 64) with 0. rewrite Z.mul_0_l, Z.mod_0_l by lia. cbn [omap bind]. rewrite k_add by lia. rewrite Z.mod_0_l by lia. intros E.
    assert (E' : num (vec_of n false 0) = num (vec_of n false (b * 2 ^ 96))) by congruence. rewrite !vec_of_num, !Z.mod_small in E' by lia. lia.
Qed.
Lemma horner_exact n b : 2 <= n < 2 ^ 31 -> 1 <= b < 2 ^ 32 -> b < 2 ^ n ->
  (forall zero d cs, typed zero n false -> tidy zero -> num zero = 0 -> typed d n false -> tidy d -> num d = b -> (forall c, In c cs -> typed c n false /\ tidy c) -> digits_num b cs < 2 ^ n ->
     exists r, horner zero d cs = Ok r /\ typed r n false /\ tidy r /\ num r = digits_num b cs) <-> n <= 64 \/ 2 ^ n <= b * 2 ^ 64.
Proof.
  intros Hn Hb Bn. assert (P32 : 2 ^ 32 < 2 ^ 64) by reflexivity. split.
  - intros H. destruct (Z.le_gt_cases n 64) as [L|L]; [left; exact L|]. destruct (Z.le_gt_cases (2 ^ n) (b * 2 ^ 64)) as [G|G]; [right; exact G|]. exfalso. pose proof (room_le n ltac:(lia)) as R. pose proof (pow2_pos n ltac:(lia)) as Pn.
    assert (Z : exists z, b * z < 2 ^ n /\ ((z = 2 ^ 64 /\ n <= 128) \/ z = 2 ^ 96)).
    { destruct (Z.le_gt_cases n 128) as [M|M]; [exists (2 ^ 64); auto|]. exists (2 ^ 96). split; [|right; reflexivity]. assert (2 ^ 128 <= 2 ^ n) by (apply Z.pow_le_mono_r; lia). assert (b * 2 ^ 96 < 2 ^ 32 * 2 ^ 96) by (apply Z.mul_lt_mono_pos_r; [reflexivity|lia]). change (2 ^ 32 * 2 ^ 96) with (2 ^ 128) in *. lia. }
    destruct Z as (z & V & C). assert (Z0 : 0 < z) by (destruct C as [[-> _]| ->]; reflexivity). assert (Zn : z < 2 ^ n) by nia.
    destruct (kept_tidy n 0 Hn ltac:(lia)) as (T0 & D0 & N0). destruct (kept_tidy n b Hn ltac:(lia)) as (T1 & D1 & N1). destruct (kept_tidy n z Hn ltac:(lia)) as (T2 & D2 & N2).
    destruct (H (vec_of n false 0) (vec_of n false b) [vec_of n false 0; vec_of n false z] T0 D0 N0 T1 D1 N1) as (r & E & Tr & Dr & Nr).
    + intros c [<-|[<-|[]]]; split; assumption.
    + cbn [digits_num]. rewrite N0, N2. lia.
    + cbn [digits_num] in Nr. rewrite N0, N2 in Nr. destruct (tidy_state n r ltac:(lia) Tr Dr) as [ER _]. apply (horner_wrong n b z Hn Hb ltac:(lia) V C). rewrite E, ER. f_equal. f_equal. lia.
  - intros C zero d cs O To Eo D Td Ed I V. rewrite <- Ed in *. apply horner_all; try assumption; try lia. destruct C as [C|C]; [left; exact C|right]. split; [lia|]. destruct cs as [|c cs]; [reflexivity|]. cbn [tl]. cbn [digits_num] in V. pose proof (num_range c). nia.
Qed.
Lemma digits_back n fuel zero d a : 2 <= n <= 96 -> (Z.to_nat n < fuel)%nat -> typed zero n false -> tidy zero -> num zero = 0 -> typed d n false -> tidy d -> 2 <= num d < 2 ^ 32 -> typed a n false -> tidy a -> n <= 64 \/ num a < num d * 2 ^ 64 ->
  exists ds r, digits fuel zero d a = Ok ds /\ horner zero d ds = Ok r /\ typed r n false /\ tidy r /\ num r = num a.
Proof.
  intros Hn F O To Eo D Td Rd A Ta C. destruct (digits_all n fuel zero d a Hn F O To Eo D Td Rd A Ta) as (ds & E & V & I & _). destruct (tidy_state n a ltac:(lia) A Ta) as [_ RA]. assert (P32 : 2 ^ 32 < 2 ^ 64) by reflexivity.
  destruct (horner_all n zero d ds ltac:(lia) O To Eo D Td ltac:(lia)) as (r & G & Tr & Dr & N).
  - intros c Hc. destruct (I c Hc) as (X & Y & _). split; assumption.
  - lia.
  - destruct C as [C|C]; [left; exact C|right]. split; [lia|]. destruct ds as [|c cs]; [reflexivity|]. cbn [tl]. cbn [digits_num] in V. pose proof (num_range c). nia.
  - exists ds, r. split; [exact E|]. split; [exact G|]. split; [exact Tr|]. split; [exact Dr|]. lia.
Qed.
