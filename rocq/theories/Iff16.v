(** When the operators of [big_num] objects are right. *)
From Coq Require Import ZArith List Bool Lia Zify ZifyBool.
From Verif Require Import Cpp BigNum Util Bit Spec ZBits Words BigNumProofs BigArith BitCmp BitShift BigObj SpecBig BigObjProofs BigObjProofs2 BigObjProofs3 SpecExact SpecMachine SpecWide WideProofs SpecBigRef BigRef SpecIff SpecIff3 Iff6 Iff8 Iff9 Iff14.
Import ListNotations.
Open Scope Z_scope.
Local Ltac Zify.zify_post_hook ::= idtac.

Lemma words_in_pos n : 1 <= n -> 1 <= words_in n. Proof. intros H. unfold words_in. apply Z.div_le_lower_bound; lia. Qed.
Lemma num_obj_magn n s z : 1 <= n -> magn (num_obj n s z) = z mod 2 ^ n.
Proof. intros H. unfold magn, raw, num_obj. cbn [n_size n_ws]. rewrite words_of_num by exact H. apply mod_mod_pow2. pose proof (capacity_ge n H). lia. Qed.
Lemma raw_in x n s : is_num x n s -> inwidth x -> raw x = magn x /\ 0 <= magn x < 2 ^ n.
Proof. intros H C. split; [symmetry; exact (clean_magn x n s H C)|exact (magn_range x n s H)]. Qed.
Lemma ival_cases x n : is_num x n true -> - 2 ^ (n - 1) <= ival x < 2 ^ (n - 1) /\ (ival x < 0 -> magn x = ival x + 2 ^ n) /\ (0 <= ival x -> magn x = ival x).
Proof.
  intros H. pose proof (isn_pos _ _ _ H) as P. pose proof (magn_range _ _ _ H) as R. pose proof (twos_range n (magn x) P R) as T. pose proof (pow_double n P) as D. unnum H. unfold ival. rewrite E, G. unfold twos in *. destruct (Z.testbit (magn x) (n - 1)); lia.
Qed.
Lemma stretch_cases x n s M both : is_num x n s -> inwidth x -> n <= M -> (both = true -> s = true) ->
  0 <= stretched x M < 2 ^ M /\
  ((widens x M both /\ stretched x M = oper x both mod 2 ^ M) \/
   (~ widens x M both /\ n < M /\ oper x both mod 2 ^ M = magn x /\ stretched x M = magn x + (2 ^ M - 2 ^ n))).
Proof.
  intros H C Hm Hb. pose proof (isn_pos _ _ _ H) as P. destruct (raw_in x n s H C) as [Q R]. assert (PM : 2 ^ n <= 2 ^ M) by (apply Z.pow_le_mono_r; lia).
  assert (LO : Z.lor (raw x) (2 ^ M - 2 ^ n) = magn x + (2 ^ M - 2 ^ n)).
  { rewrite Q. apply extend_ones; [lia|exact R|]. intros p Hp. rewrite Z.lor_spec, ones_bits by lia. apply orb_comm. }
  assert (OP : oper x both mod 2 ^ M = if both then (if ival x <? 0 then magn x + (2 ^ M - 2 ^ n) else magn x) else magn x).
  { unfold oper. destruct both; [|apply Z.mod_small; lia]. rewrite (Hb eq_refl) in H. destruct (ival_cases x n H) as (B & N & Z0). pose proof (pow_double n P). pose proof (pow2_pos (n - 1) ltac:(lia)).
    destruct (Z.ltb_spec (ival x) 0) as [L | L]; [|rewrite <- Z0 by lia; apply Z.mod_small; lia]. rewrite (N L). rewrite <- (Z.mod_add _ 1) by lia. rewrite Z.mod_small; lia. }
  assert (DM : n < M -> 2 ^ n < 2 ^ M) by (intros L; apply Z.pow_lt_mono_r; lia). pose proof (pow2_pos n ltac:(lia)) as PP.
  unfold stretched, widens. unnum H. rewrite E, G, LO, Q. destruct (Z.eqb_spec n M) as [D | D].
  - split; [rewrite <- D; lia|]. left. split; [left; exact D|]. rewrite OP, D. destruct both, (ival x <? 0); lia.
  - destruct s.
    + split; [lia|]. destruct both.
      * destruct (Z.ltb_spec (ival x) 0) as [L | L]; [left; split; [right; split; assumption|lia]|]. right. split; [intros [A | [_ A]]; lia|lia].
      * right. split; [intros [A | [_ A]]; [lia|discriminate]|lia].
    + split; [lia|]. left. destruct both; [specialize (Hb eq_refl); discriminate|]. split; [right; split; [assumption|reflexivity]|lia].
Qed.
Lemma size_widens x M b : n_size x = M -> widens x M b. Proof. intros H. left. exact H. Qed.
Lemma joined_right f g h x y n s m t : is_num x n s -> is_num y m t -> g x y = joined (fun M a b => Ok (f M a b)) x y ->
  exists r, g x y = Ok r /\ n_size r = Z.max n m /\ n_sgn r = s && t /\ magn r = f (Z.max n m) (stretched x (Z.max n m)) (stretched y (Z.max n m)) mod 2 ^ Z.max n m /\
    ((exists r, g x y = Ok r /\ magn r = h) <-> f (Z.max n m) (stretched x (Z.max n m)) (stretched y (Z.max n m)) mod 2 ^ Z.max n m = h).
Proof.
  intros H K Q. pose proof (isn_pos _ _ _ H) as P. unnum H. unnum K. rewrite Q. unfold joined. cbn zeta. rewrite E, E0, G, G0. eexists. split; [reflexivity|]. split; [reflexivity|]. split; [reflexivity|].
  split; [apply num_obj_magn; lia|]. split; [intros (r & A & <-); injection A as <-; symmetry; apply num_obj_magn; lia|]. intros A. eexists. split; [reflexivity|]. rewrite num_obj_magn by lia. exact A.
Qed.

(** * widening *)
Lemma num_extend_iff x n s m : is_num x n s -> inwidth x -> n <= m -> (exists r, num_extend x m = Ok r /\ magn r = ival x mod 2 ^ m) <-> widens x m s.
Proof.
  intros H C Hm. pose proof (isn_pos _ _ _ H) as P. rewrite (extend_ref x n s m H) by lia. unfold ref_extend. pose proof H as H'. unnum H. rewrite E, G. replace (m <? n) with false by lia.
  destruct (stretch_cases x n s m s H' C Hm ltac:(auto)) as [R D]. assert (OI : oper x s = ival x) by (unfold oper, ival; rewrite G; destruct s; reflexivity). rewrite OI in D.
  assert (2 ^ n < 2 ^ m \/ n = m) by (destruct (Z.eq_dec n m); [right; assumption|left; apply Z.pow_lt_mono_r; lia]). pose proof (pow2_pos n ltac:(lia)).
  destruct D as [[W1 Q] | (W1 & L & Q1 & Q2)].
  - split; [intros _; exact W1|intros _]. eexists. split; [reflexivity|]. rewrite num_obj_magn by lia. rewrite Q. apply Z.mod_mod. lia.
  - split; [|tauto]. intros (r & A & B). injection A as <-. rewrite num_obj_magn in B by lia. rewrite Z.mod_small in B by lia. lia.
Qed.

(** * bitwise *)
Lemma bitwise_side f zop x y n s m t : (forall u v p, 0 <= p -> Z.testbit (zop u v) p = f (Z.testbit u p) (Z.testbit v p)) ->
  is_num x n s -> is_num y m t -> inwidth x -> inwidth y -> n <= m ->
  zop (stretched x m) (stretched y m) mod 2 ^ m = zop (oper x (s && t)) (oper y (s && t)) mod 2 ^ m <->
  (~ widens x m (s && t) -> forall p, n <= p < m -> f true (Z.testbit (magn y) p) = f false (Z.testbit (magn y) p)).
Proof.
  intros F H K Cx Cy L. pose proof (isn_pos _ _ _ H) as P. destruct (stretch_cases x n s m (s && t) H Cx ltac:(lia) ltac:(destruct s; auto)) as [Rx Dx].
  destruct (stretch_cases y m t m (s && t) K Cy ltac:(lia) ltac:(destruct s, t; auto)) as [Ry Dy]. destruct Dy as [[_ Qy] | (_ & ? & _)]; [|lia].
  assert (Ey : stretched y m = magn y) by (unfold stretched; pose proof (raw_in y m t K Cy) as [-> _]; unnum K; rewrite E, Z.eqb_refl; reflexivity).
  rewrite mod_bits_eq by lia.
  assert (BY : forall p, 0 <= p < m -> Z.testbit (oper y (s && t)) p = Z.testbit (magn y) p).
  { intros p Hp. rewrite <- Ey, Qy, testbit_mod_pow2 by lia. replace (p <? m) with true by lia. reflexivity. }
  assert (BX : forall p, 0 <= p < m -> Z.testbit (oper x (s && t)) p = Z.testbit (oper x (s && t) mod 2 ^ m) p).
  { intros p Hp. rewrite testbit_mod_pow2 by lia. replace (p <? m) with true by lia. reflexivity. }
  destruct Dx as [[W1 Q] | (W1 & Lt & Q1 & Q2)].
  - split; [intros _ X; contradiction|]. intros _ p Hp. rewrite !F by lia. rewrite BY, BX, <- Q, Ey by lia. reflexivity.
  - pose proof (magn_range _ _ _ H) as R. assert (BS : forall p, 0 <= p -> Z.testbit (stretched x m) p = ((n <=? p) && (p <? m)) || Z.testbit (magn x) p).
    { intros p Hp. rewrite Q2. rewrite <- (extend_ones n m (magn x) ltac:(lia) R (Z.lor (magn x) (2 ^ m - 2 ^ n))); [rewrite Z.lor_spec, ones_bits by lia; apply orb_comm|]. intros q Hq. rewrite Z.lor_spec, ones_bits by lia. apply orb_comm. }
    split.
    + intros A _ p Hp. specialize (A p ltac:(lia)). rewrite !F, BS, Ey, BY, BX, Q1 in A by lia. rewrite (testbit_high (magn x) n p R) in A by lia. replace ((n <=? p) && (p <? m)) with true in A by lia. exact A.
    + intros A p Hp. rewrite !F, BS, Ey, BY, BX, Q1 by lia. destruct (Z.leb_spec n p) as [Lp | Lp]; [|reflexivity]. rewrite (testbit_high (magn x) n p R) by lia. replace (p <? m) with true by lia. cbn [andb orb]. apply A; [exact W1|lia].
Qed.
Lemma bitwise_both f zop op cut x y n s m t : (forall u v p, 0 <= p -> Z.testbit (zop u v) p = f (Z.testbit u p) (Z.testbit v p)) -> (forall u v, zop u v = zop v u) -> (forall b c, f b c = f c b) ->
  (forall M a b, cut M a b mod 2 ^ M = zop a b mod 2 ^ M) ->
  is_num x n s -> is_num y m t -> inwidth x -> inwidth y -> op x y = joined (fun M a b => Ok (cut M a b)) x y ->
  (exists r, op x y = Ok r /\ magn r = zop (oper x (s && t)) (oper y (s && t)) mod 2 ^ Z.max n m) <->
  (~ widens x (Z.max n m) (s && t) -> forall p, n <= p < Z.max n m -> f true (Z.testbit (magn y) p) = f false (Z.testbit (magn y) p)) /\
  (~ widens y (Z.max n m) (s && t) -> forall p, m <= p < Z.max n m -> f true (Z.testbit (magn x) p) = f false (Z.testbit (magn x) p)).
Proof.
  intros F ZC FC CU H K Cx Cy Q. destruct (joined_right cut op (zop (oper x (s && t)) (oper y (s && t)) mod 2 ^ Z.max n m) x y n s m t H K Q) as (r & _ & _ & _ & _ & ->). rewrite CU.
  pose proof (proj1 (proj2 H)) as Sx. pose proof (proj1 (proj2 K)) as Sy.
  destruct (Z.le_ge_cases n m) as [L | L].
  - rewrite (Z.max_r n m L). rewrite (bitwise_side f zop x y n s m t) by assumption. split; [intros A; split; [exact A|intros X; exfalso; apply X, size_widens, Sy]|intros [A _]; exact A].
  - rewrite (Z.max_l n m L). rewrite (ZC (stretched x n)), (ZC (oper x (s && t))), (andb_comm s t). rewrite (bitwise_side f zop y x m t n s) by assumption.
    split; [intros A; split; [intros X; exfalso; apply X, size_widens, Sx|exact A]|intros [_ A]; exact A].
Qed.
Lemma num_bitwise_iff x y n s m t : is_num x n s -> is_num y m t -> inwidth x -> inwidth y ->
  let M := Z.max n m in
  ((exists r, num_and x y = Ok r /\ magn r = Z.land (oper x (s && t)) (oper y (s && t)) mod 2 ^ M) <->
     (~ widens x M (s && t) -> magn y < 2 ^ n) /\ (~ widens y M (s && t) -> magn x < 2 ^ m)) /\
  ((exists r, num_or x y = Ok r /\ magn r = Z.lor (oper x (s && t)) (oper y (s && t)) mod 2 ^ M) <->
     (~ widens x M (s && t) -> 2 ^ M - 2 ^ n <= magn y) /\ (~ widens y M (s && t) -> 2 ^ M - 2 ^ m <= magn x)) /\
  ((exists r, num_xor x y = Ok r /\ magn r = Z.lxor (oper x (s && t)) (oper y (s && t)) mod 2 ^ M) <-> widens x M (s && t) /\ widens y M (s && t)).
Proof.
  intros H K Cx Cy M. pose proof (isn_pos _ _ _ H) as P. pose proof (isn_pos _ _ _ K) as P'. pose proof (magn_range _ _ _ H) as Rx. pose proof (magn_range _ _ _ K) as Ry.
  assert (PM : 2 ^ n <= 2 ^ M /\ 2 ^ m <= 2 ^ M) by (split; apply Z.pow_le_mono_r; lia).
  pose proof (proj1 (proj2 H)) as Sx. pose proof (proj1 (proj2 K)) as Sy.
  assert (N0 : forall x M (b : bool), n_size x = M -> ~ widens x M b -> False) by (intros; apply H1, size_widens, H0).
  assert (Lx : ~ widens x M (s && t) -> n < M) by (intros X; destruct (Z.eq_dec n M) as [D | D]; [exfalso; apply X, size_widens; lia|lia]).
  assert (Ly : ~ widens y M (s && t) -> m < M) by (intros X; destruct (Z.eq_dec m M) as [D | D]; [exfalso; apply X, size_widens; lia|lia]).
  split; [|split].
  - unfold M. rewrite (bitwise_both andb Z.land num_and (fun M a b => Z.land a b mod 2 ^ M) x y n s m t); try assumption; [|intros; apply Z.land_spec|intros; apply Z.land_comm|intros; apply andb_comm|intros; apply Zmod_mod|apply (and_ref x y n s m t); assumption].
    cbn [andb]. fold M. rewrite (all_low (magn y) n M) by lia. rewrite (all_low (magn x) m M) by lia. reflexivity.
  - unfold M. rewrite (bitwise_both orb Z.lor num_or (fun M a b => Z.lor a b) x y n s m t); try assumption; [|intros; apply Z.lor_spec|intros; apply Z.lor_comm|intros; apply orb_comm|reflexivity|apply (or_ref x y n s m t); assumption].
    cbn [orb]. fold M. rewrite <- (all_high (magn y) n M) by lia. rewrite <- (all_high (magn x) m M) by lia.
    split; intros [A B]; (split; [intros X p Hp; specialize (A X p Hp); congruence|intros X p Hp; specialize (B X p Hp); congruence]).
  - unfold M. rewrite (bitwise_both xorb Z.lxor num_xor (fun M a b => Z.lxor a b) x y n s m t); try assumption; [|intros; apply Z.lxor_spec|intros; apply Z.lxor_comm|intros; apply xorb_comm|reflexivity|apply (xor_ref x y n s m t); assumption].
    fold M. destruct (stretch_cases x n s M (s && t) H Cx ltac:(lia) ltac:(destruct s; auto)) as [_ Dx]. destruct (stretch_cases y m t M (s && t) K Cy ltac:(lia) ltac:(destruct s, t; auto)) as [_ Dy].
    split; [|intros [A B]; split; intros X; contradiction]. intros [A B]. split.
    + destruct Dx as [[W1 _] | (W1 & Lt & _)]; [exact W1|]. specialize (A W1 n ltac:(lia)). destruct (Z.testbit (magn y) n); discriminate.
    + destruct Dy as [[W1 _] | (W1 & Lt & _)]; [exact W1|]. specialize (B W1 m ltac:(lia)). destruct (Z.testbit (magn x) m); discriminate.
Qed.

(** * sums and differences *)
Lemma no_wrap n M d : 0 <= n < M -> (d + (2 ^ M - 2 ^ n)) mod 2 ^ M <> d mod 2 ^ M /\ (d - (2 ^ M - 2 ^ n)) mod 2 ^ M <> d mod 2 ^ M.
Proof.
  intros H. assert (2 ^ n < 2 ^ M) by (apply Z.pow_lt_mono_r; lia). pose proof (pow2_pos n ltac:(lia)).
  assert (A : forall u v, u mod 2 ^ M = v mod 2 ^ M -> exists q, u - v = q * 2 ^ M).
  { intros u v Q. exists (u / 2 ^ M - v / 2 ^ M). pose proof (Z.div_mod u (2 ^ M) ltac:(lia)). pose proof (Z.div_mod v (2 ^ M) ltac:(lia)). lia. }
  split; intros Q; apply A in Q; destruct Q as [q Q]; assert (q = 0 \/ q < 0 \/ 0 < q) as [C | [C | C]] by lia; nia.
Qed.
Lemma num_sum_iff x y n s m t : is_num x n s -> is_num y m t -> inwidth x -> inwidth y ->
  let M := Z.max n m in
  ((exists r, num_add x y = Ok r /\ magn r = (oper x (s && t) + oper y (s && t)) mod 2 ^ M) <-> widens x M (s && t) /\ widens y M (s && t)) /\
  ((exists r, num_sub x y = Ok r /\ magn r = (oper x (s && t) - oper y (s && t)) mod 2 ^ M) <-> widens x M (s && t) /\ widens y M (s && t)).
Proof.
  intros H K Cx Cy M. pose proof (isn_pos _ _ _ H) as P. pose proof (isn_pos _ _ _ K) as P'.
  destruct (joined_right (fun _ a b => a + b) num_add ((oper x (s && t) + oper y (s && t)) mod 2 ^ M) x y n s m t H K (add_ref x y n s m t H K)) as (r1 & _ & _ & _ & _ & ->).
  destruct (joined_right (fun _ a b => a - b) num_sub ((oper x (s && t) - oper y (s && t)) mod 2 ^ M) x y n s m t H K (sub_ref x y n s m t H K)) as (r2 & _ & _ & _ & _ & ->). fold M.
  destruct (stretch_cases x n s M (s && t) H Cx ltac:(lia) ltac:(destruct s; auto)) as [_ Dx]. destruct (stretch_cases y m t M (s && t) K Cy ltac:(lia) ltac:(destruct s, t; auto)) as [_ Dy].
  rewrite (Zplus_mod (oper x (s && t))), (Zminus_mod (oper x (s && t))).
  destruct Dx as [[W1 Q] | (W1 & Lt & Q1 & Q2)], Dy as [[W2 Q'] | (W2 & Lt' & Q1' & Q2')]; [| | |exfalso; lia].
  - rewrite Q, Q'. tauto.
  - rewrite Q2', Q1', Q. destruct (no_wrap m M (oper x (s && t) mod 2 ^ M + magn y) ltac:(lia)) as [A _]. destruct (no_wrap m M (oper x (s && t) mod 2 ^ M - magn y) ltac:(lia)) as [_ B].
    split; (split; [|tauto]); intros C; exfalso; [apply A; rewrite <- C; f_equal; lia|apply B; rewrite <- C; f_equal; lia].
  - rewrite Q2, Q1, Q'. destruct (no_wrap n M (magn x + oper y (s && t) mod 2 ^ M) ltac:(lia)) as [A _]. destruct (no_wrap n M (magn x - oper y (s && t) mod 2 ^ M) ltac:(lia)) as [B _].
    split; (split; [|tauto]); intros C; exfalso; [apply A; rewrite <- C; f_equal; lia|apply B; rewrite <- C; f_equal; lia].
Qed.

(** * products *)
Lemma num_mul_iff x y n s m t : is_num x n s -> is_num y m t -> inwidth x -> inwidth y -> n < 2 ^ 31 -> m < 2 ^ 31 ->
  let M := Z.max n m in widens x M (s && t) -> widens y M (s && t) ->
  ((exists r, num_mul x y = Ok r /\ magn r = (oper x (s && t) * oper y (s && t)) mod 2 ^ M) <-> 65 <= M /\ multiplies_right M (opnd x M (s && t)) (opnd y M (s && t))).
Proof.
  intros H K Cx Cy Hn Hm M Wx Wy. pose proof (isn_pos _ _ _ H) as P. pose proof (isn_pos _ _ _ K) as P'.
  destruct (stretch_cases x n s M (s && t) H Cx ltac:(lia) ltac:(destruct s; auto)) as [Ra [[_ Qx] | (C & _)]]; [|contradiction].
  destruct (stretch_cases y m t M (s && t) K Cy ltac:(lia) ltac:(destruct s, t; auto)) as [Rb [[_ Qy] | (C & _)]]; [|contradiction].
  rewrite (mul_ref x y n s m t) by assumption. unfold ref_mul, joined. cbn zeta. pose proof (proj1 (proj2 H)) as Sx. pose proof (proj1 (proj2 K)) as Sy. rewrite Sx, Sy. fold M.
  unfold opnd. rewrite (Zmult_mod (oper x (s && t))), <- Qx, <- Qy. set (X := stretched x M) in *. set (Y := stretched y M) in *. clearbody X Y.
  destruct (Z.leb_spec M 64) as [L | L]; [split; [intros (r & A & _); discriminate|lia]|].
  pose proof (seems_small_hollow M X ltac:(lia) (in_capacity M _ ltac:(lia) Ra)) as HX. pose proof (seems_small_hollow M Y ltac:(lia) (in_capacity M _ ltac:(lia) Rb)) as HY. unfold multiplies_right.
  destruct (seems_small M X && seems_small M Y) eqn:E.
  - apply andb_prop in E. destruct E as [E1 E2]. apply HX in E1. apply HY in E2. split.
    + intros (r & A & Nr). injection A as <-. rewrite num_obj_magn in Nr by lia. split; [lia|]. left. auto.
    + intros [_ [(_ & _ & A) | (A & _)]]; [|tauto]. eexists. split; [reflexivity|]. rewrite num_obj_magn by lia. exact A.
  - assert (C : ~ (hollow (X / 2 ^ 64) /\ hollow (Y / 2 ^ 64))). { intros [A B]. apply HX in A. apply HY in B. rewrite A, B in E. discriminate. }
    destruct ((X =? 0) || (Y =? 0)) eqn:E0.
    + assert (Z0 : X = 0 \/ Y = 0) by lia. split; [intros _; split; [lia|right; tauto]|]. intros _. eexists. split; [reflexivity|]. rewrite num_obj_magn by lia. destruct Z0 as [-> | ->]; [reflexivity|now rewrite Z.mul_0_r].
    + unfold words_in. destruct (Z.ltb_spec (Z.log2 X / 64 + Z.log2 Y / 64 + 1) ((M + 63) / 64)) as [L' | L'].
      * split; [intros _; split; [lia|right; tauto]|]. intros _. eexists. split; [reflexivity|]. apply num_obj_magn. lia.
      * split; [intros (r & A & _); discriminate|]. intros [_ [(A & B & _) | (_ & [A | [A | A]])]]; [tauto|lia|lia|lia].
Qed.

(** * quotients and remainders *)
Lemma short_hollow z : 0 <= z < 2 ^ 64 -> z / 2 ^ 64 = 0 /\ z mod 2 ^ 64 = z.
Proof. intros H. split; [apply Z.div_small|apply Z.mod_small]; exact H. Qed.
Lemma seems_zero_short n z : 1 <= n <= 64 -> 0 <= z < 2 ^ 64 -> words_of n z = [z].
Proof.
  intros H R. unfold words_of. replace (words_in n) with 1 by (unfold words_in; apply Z.div_unique with (n - 1); lia). change (Z.to_nat 1) with 1%nat. cbn [spread]. rewrite Z.mod_small by exact R. reflexivity.
Qed.
Lemma divided_all n x y : 1 <= n -> 0 <= x < 2 ^ n -> 0 <= y < 2 ^ n -> quotient_of n x y (divided n x y) <-> num_divides x y.
Proof.
  intros Hn Rx Ry. destruct (Z.leb_spec n 64) as [L | L].
  - assert (P : 2 ^ n <= 2 ^ 64) by (apply Z.pow_le_mono_r; lia). assert (Rx' : 0 <= x < 2 ^ 64) by lia. assert (Ry' : 0 <= y < 2 ^ 64) by lia. destruct (short_hollow x Rx') as [Hx Lx]. destruct (short_hollow y Ry') as [Hy Ly].
    unfold divided, num_divides, seems_zero, seems_small. rewrite !seems_zero_short by (assumption || lia). cbn [tl]. change (blank []) with true. cbn [andb]. rewrite Hx, Hy, Lx, Ly.
    assert (B : blank [y] = true <-> hollow y). { rewrite hollow_split by lia. rewrite Hy. cbn [blank forallb]. rewrite andb_true_r, Z.eqb_eq. pose proof hollow_0. tauto. }
    destruct (blank [y]) eqn:E1.
    { assert (Ho : hollow y) by now apply B. split.
      - intros (q & r & E & _ & _ & A & R). injection E as <- <-. split; [lia|]. lia.
      - intros [Ny A]. destruct (Z.eq_dec x 0) as [-> | Nx]; [exists 0, 0; repeat split; lia|]. destruct (A Nx) as [C _]. contradiction. }
    assert (Ny : ~ hollow y) by (intros A; apply B in A; discriminate). assert (Y0 : y <> 0) by (intros ->; apply Ny, hollow_0).
    assert (Q : forall q r, x = q * y + r -> 0 <= r < y -> quotient_of n x y (Ok (q, r)) <-> num_divides x y).
    { intros q r A C. unfold num_divides. rewrite Hx, Hy, Ly. split; [intros _; split; [exact Y0|]; intros _; split; [exact Ny|]; split; [auto|]; intros; rewrite Z.mul_0_r; reflexivity|]. intros _. assert (0 <= q) by nia. assert (q <= x) by nia. exists q, r. repeat split; (lia || nia). }
    unfold num_divides in Q. rewrite Hx, Hy, Lx, Ly in Q.
    destruct (Z.eqb_spec y 1) as [-> | N1]; [apply Q; lia|]. destruct (Z.eqb_spec x y) as [-> | N2]; [apply Q; lia|]. destruct (Z.ltb_spec x y) as [L1 | L1]; [apply Q; lia|].
    replace (y =? 0) with false by lia. pose proof (Z.div_mod x y ltac:(lia)). pose proof (Z.mod_pos_bound x y ltac:(lia)). apply Q; lia.
  - rewrite divided_iff by (assumption || lia). unfold divides_right, num_divides. split; intros [A B]; (split; [exact A|]); intros; apply B; (assumption || lia).
Qed.
Lemma num_div_iff x y n m t : is_num x n false -> is_num y m t -> inwidth x -> inwidth y -> n < 2 ^ 31 -> m < 2 ^ 31 -> widens y (Z.max n m) false ->
  (exists q r, num_div x y = Ok q /\ num_rem x y = Ok r /\ magn x = magn q * magn y + magn r /\ magn r < magn y) <-> num_divides (magn x) (magn y).
Proof.
  intros H K Cx Cy Hn Hm Wy. pose proof (isn_pos _ _ _ H) as P. pose proof (isn_pos _ _ _ K) as P'. set (M := Z.max n m) in *.
  destruct (stretch_cases x n false M false H Cx ltac:(lia) ltac:(auto)) as [Ra [[_ Qx] | (C & _)]]. 2:{ exfalso. apply C. right. split; [exact Cx|]. apply H. }
  destruct (stretch_cases y m t M false K Cy ltac:(lia) ltac:(discriminate)) as [Rb [[_ Qy] | (C & _)]]; [|contradiction].
  assert (PM : 2 ^ n <= 2 ^ M /\ 2 ^ m <= 2 ^ M) by (split; apply Z.pow_le_mono_r; lia). pose proof (magn_range _ _ _ H) as Rx. pose proof (magn_range _ _ _ K) as Ry.
  cbn [oper] in Qx, Qy. rewrite (Z.mod_small (magn x)) in Qx by lia. rewrite (Z.mod_small (magn y)) in Qy by lia. clear Ra Rb.
  rewrite (div_ref x y n false m t), (rem_ref x y n false m t) by assumption. unfold ref_div, ref_rem, joined. cbn zeta. destruct H as (_ & Sx & Gx & _). destruct K as (_ & Sy & Gy & _). rewrite Sx, Sy, Gx. fold M. rewrite Qx, Qy.
  rewrite <- (divided_all M) by lia. unfold quotient_of. split.
  - intros (q & r & A & B & C & D). destruct (divided M (magn x) (magn y)) as [[q' r']| | | |] eqn:E; cbn [omap bind fst snd] in A, B; try discriminate. injection A as <-. injection B as <-. rewrite !num_obj_magn in * by lia.
    pose proof (Z.mod_pos_bound q' (2 ^ M) ltac:(lia)). pose proof (Z.mod_pos_bound r' (2 ^ M) ltac:(lia)).
    assert (S0 : 0 <= q' < 2 ^ M /\ 0 <= r' < 2 ^ M); [|destruct S0; rewrite !Z.mod_small in * by lia; exists q', r'; repeat split; (reflexivity || lia)].
    clear - E Rx Ry PM P P' M. assert (RX : 0 <= magn x < 2 ^ M) by lia. assert (RY : 0 <= magn y < 2 ^ M) by lia. revert E RX RY. generalize (magn x) (magn y). intros X Y E RX RY. clear Rx Ry PM.
    assert (HM : 1 <= M) by lia. clearbody M. clear P P' x y. unfold divided in E.
    destruct (seems_zero M Y) eqn:SZ; [injection E as <- <-; lia|].
    destruct (seems_small M Y && (Y mod 2 ^ 64 =? 1)); [injection E as <- <-; lia|]. destruct (Z.eqb_spec X Y) as [|N0]; [injection E as <- <-; pose proof (pow2_mono 1 M ltac:(lia)); change (2 ^ 1) with 2 in *; lia|].
    destruct (Z.ltb_spec X Y) as [|L0]; [injection E as <- <-; lia|].
    assert (Y0 : 0 < Y). { destruct (Z.eq_dec Y 0) as [-> |]; [|lia]. exfalso. clear - SZ. unfold seems_zero, words_of in SZ. assert (Z0 : forall k, blank (spread k 0) = true); [induction k as [|k IH]; [reflexivity|]; cbn [spread blank forallb]; exact IH|]. rewrite Z0 in SZ. discriminate. }
    destruct (seems_small M X && seems_small M Y).
    + destruct (Y mod 2 ^ 64 =? 0) eqn:Y64; [discriminate|]. injection E as <- <-. pose proof (Z.mod_pos_bound X (2 ^ 64) ltac:(lia)). pose proof (Z.mod_pos_bound Y (2 ^ 64) ltac:(lia)).
      assert (X mod 2 ^ 64 <= X) by (apply Z.mod_le; lia). assert (0 < Y mod 2 ^ 64) by lia.
      assert (X mod 2 ^ 64 / (Y mod 2 ^ 64) <= X mod 2 ^ 64) by (apply Z.div_le_upper_bound; nia). assert (0 <= X mod 2 ^ 64 / (Y mod 2 ^ 64)) by (apply Z.div_pos; lia).
      pose proof (Z.mod_pos_bound (X mod 2 ^ 64) (Y mod 2 ^ 64) ltac:(lia)). assert (X mod 2 ^ 64 mod (Y mod 2 ^ 64) <= X mod 2 ^ 64) by (apply Z.mod_le; lia). lia.
    + rewrite long_division_whole in E by lia. injection E as <- <-. assert (X / Y <= X) by (apply Z.div_le_upper_bound; nia). assert (0 <= X / Y) by (apply Z.div_pos; lia). pose proof (Z.mod_pos_bound X Y ltac:(lia)). lia.
  - intros (q & r & E & A & B & C & D). rewrite E. cbn [omap bind fst snd]. eexists. eexists. split; [reflexivity|]. split; [reflexivity|]. rewrite !num_obj_magn by lia. rewrite !Z.mod_small by lia. lia.
Qed.
