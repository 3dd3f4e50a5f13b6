(** The Hamming distance of two vectors. *)
From Coq Require Import ZArith List Bool Lia.
From Verif Require Import Cpp ZBits Bit Spec SpecExact SpecMachine SpecWide Client SpecProg SpecTrick Trick Distance BitProofs BitExt LogicMain Iff3 Iff25 ProgExact SaturateProofs DigitsProofs TrickProofs LongProofs.
From Verif Require CircuitProofs.
Import ListNotations.
Open Scope Z_scope.
Local Ltac Zify.zify_post_hook ::= idtac.

Lemma ones_next i z : 0 <= i -> ones (i + 1) z = ones i z + Z.b2z (Z.testbit z i).
Proof.
  intros I. unfold ones. replace (Z.to_nat (i + 1)) with (S (Z.to_nat i)) by lia. rewrite seq_S, filter_app, app_length. cbn [filter Nat.add]. rewrite Z2Nat.id by exact I. destruct (Z.testbit z i); cbn [length Z.b2z]; lia.
Qed.
Lemma distance_ones n a b s t : 1 <= n -> typed a n s -> typed b n t -> distance n a b = Ok (ones n (Z.lxor (num a) (num b))).
Proof.
  intros N A B. destruct (zrange_ofold_ind (fun c i => let! x := bit_get a i in let! y := bit_get b i in Ok (if xorb x y then c + 1 else c)) (fun i c => c = ones i (Z.lxor (num a) (num b))) 0 n 0) as (c & E & ->); [lia|reflexivity| |exact E].
  intros i c I ->. rewrite (CircuitProofs.typed_get a n s i A I), (CircuitProofs.typed_get b n t i B I). cbn [bind]. eexists. split; [reflexivity|]. rewrite ones_next, Z.lxor_spec by lia. unfold bit_at. destruct (xorb _ _); cbn [Z.b2z]; lia.
Qed.
Lemma ones_pos n z : 0 <= ones n z. Proof. unfold ones. lia. Qed.
Lemma ones_le n z : 0 <= n -> ones n z <= n.
Proof. intros N. rewrite <- (Z2Nat.id n N). induction (Z.to_nat n) as [|k IH]; [reflexivity|]. rewrite Nat2Z.inj_succ. unfold Z.succ. rewrite ones_next by lia. destruct (Z.testbit z _); cbn [Z.b2z]; lia. Qed.
Lemma ones_zero n z : 0 <= n -> ones n z = 0 -> forall p, 0 <= p < n -> Z.testbit z p = false.
Proof.
  intros N E p Hp. destruct (Z.testbit z p) eqn:B; [|reflexivity]. exfalso. unfold ones in E. assert (I : In (Z.to_nat p) (filter (fun k => Z.testbit z (Z.of_nat k)) (seq 0 (Z.to_nat n)))). { apply filter_In. split; [apply in_seq; lia|]. rewrite Z2Nat.id by lia. exact B. }
  destruct (filter _ _); [exact I|cbn [length] in E; lia].
Qed.
Lemma ones_sub n x y : 0 <= n -> ones n (Z.lxor x y) <= ones n x + ones n y.
Proof.
  intros N. rewrite <- (Z2Nat.id n N). induction (Z.to_nat n) as [|k IH]; [reflexivity|]. rewrite Nat2Z.inj_succ. unfold Z.succ. rewrite !ones_next, Z.lxor_spec by lia. destruct (Z.testbit x _), (Z.testbit y _); cbn [xorb Z.b2z]; lia.
Qed.
Lemma num_in n s a : 1 <= n -> typed a n s -> 0 <= num a < 2 ^ n.
Proof. intros Hn A. pose proof (num_range a) as R. rewrite (typed_bw a n s Hn A) in R. exact R. Qed.
Lemma distance_metric n a b c s t u : 1 <= n -> typed a n s -> typed b n t -> typed c n u ->
  exists ab ba bc ac, distance n a b = Ok ab /\ distance n b a = Ok ba /\ distance n b c = Ok bc /\ distance n a c = Ok ac /\
    0 <= ab <= n /\ (ab = 0 <-> num a = num b) /\ ab = ba /\ ac <= ab + bc.
Proof.
  intros N A B C. do 4 eexists. split; [exact (distance_ones n a b s t N A B)|]. split; [exact (distance_ones n b a t s N B A)|]. split; [exact (distance_ones n b c t u N B C)|]. split; [exact (distance_ones n a c s u N A C)|].
  split; [split; [apply ones_pos|apply ones_le; lia]|]. split; [|split].
  - split; intros E.
    + apply Z.bits_inj'. intros p Hp. destruct (Z.lt_ge_cases p n) as [L|L].
      * pose proof (ones_zero n _ ltac:(lia) E p ltac:(lia)) as F. rewrite Z.lxor_spec in F. apply xorb_eq. exact F.
      * pose proof (num_in n s a N A) as RA. pose proof (num_in n t b N B) as RB. rewrite <- (Z.mod_small (num a) (2 ^ n)), <- (Z.mod_small (num b) (2 ^ n)) by assumption. rewrite !Z.mod_pow2_bits_high by lia. reflexivity.
    + rewrite E, Z.lxor_nilpotent. unfold ones. induction (seq 0 (Z.to_nat n)) as [|x l IH]; [reflexivity|]. cbn [filter]. rewrite Z.bits_0. exact IH.
  - rewrite Z.lxor_comm. reflexivity.
  - replace (Z.lxor (num a) (num c)) with (Z.lxor (Z.lxor (num a) (num b)) (Z.lxor (num b) (num c))); [apply ones_sub; lia|]. rewrite Z.lxor_assoc, <- (Z.lxor_assoc (num b) (num b)), Z.lxor_nilpotent, Z.lxor_0_l. reflexivity.
Qed.
Lemma distance_cleared_same n a b one fuel : 2 <= n <= 64 -> typed a n false -> tidy a -> typed b n false -> tidy b -> typed one n false -> tidy one -> num one = 1 -> n < Z.of_nat fuel ->
  distance_cleared fuel one a b = distance n a b.
Proof.
  intros N A Ta B Tb O To Eo F. rewrite (distance_ones n a b false false) by (assumption || lia). destruct (tidy_state n a ltac:(lia) A Ta) as [EA RA]. destruct (tidy_state n b ltac:(lia) B Tb) as [EB RB]. pose proof (room_le n ltac:(lia)) as P. pose proof (lxor_range n (num a) (num b) ltac:(lia) RA RB) as RX.
  remember (num a) as x eqn:HX. remember (num b) as y eqn:HY. unfold distance_cleared. rewrite EA, EB. rewrite k_xor by lia. cbn [bind]. destruct (kept_tidy n (Z.lxor x y) ltac:(lia) RX) as (T & D & M). rewrite (count_native n _ one fuel) by (assumption || lia). rewrite M. reflexivity.
Qed.
Lemma distance_cleared_counted n a b one fuel : 2 <= n -> typed a n false -> tidy a -> typed b n false -> tidy b -> typed one n false -> tidy one -> num one = 1 -> n < Z.of_nat fuel ->
  distance_cleared fuel one a b = Ok (counted n (Z.lxor (num a) (num b))).
Proof.
  intros N A Ta B Tb O To Eo F. pose proof (typed_lt a n false ltac:(lia) A) as Lt. destruct (tidy_state n a ltac:(lia) A Ta) as [EA RA]. destruct (tidy_state n b ltac:(lia) B Tb) as [EB RB]. pose proof (room_le n ltac:(lia)) as P. pose proof (lxor_range n (num a) (num b) ltac:(lia) RA RB) as RX.
  remember (num a) as x eqn:HX. remember (num b) as y eqn:HY. unfold distance_cleared. rewrite EA, EB. rewrite k_xor by lia. cbn [bind]. destruct (kept_tidy n (Z.lxor x y) ltac:(lia) RX) as (T & D & M). rewrite (count_exact n _ one fuel) by (assumption || lia). rewrite M. reflexivity.
Qed.
