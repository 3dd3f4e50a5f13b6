(** Looking for ones and comparing position by position. *)
From Coq Require Import ZArith List Bool Lia.
From Verif Require Import Cpp ZBits Bit Logic Spec SpecScan Scan BitProofs BitExt CircuitProofs CircuitExact SaturateProofs PermuteProofs.
Import ListNotations.
Open Scope Z_scope.
Local Ltac Zify.zify_post_hook ::= idtac.

Lemma high_loop (f : Z -> Z -> outcome Z) (t : Z -> bool) n : 0 <= n -> (forall r i, 0 <= i < n -> f r i = Ok (if t i then i else r)) ->
  exists r, ofold f (zrange 0 n) (-1) = Ok r /\ highest (fun p => t p = true) n r.
Proof.
  intros N F. apply (zrange_ofold_ind f (fun k r => highest (fun p => t p = true) k r)); [exact N|left; split; [reflexivity|intros p Hp; lia]|].
  intros i r Hi H. rewrite F by exact Hi. eexists. split; [reflexivity|]. destruct (t i) eqn:T. { right. split; [lia|]. split; [exact T|]. intros p Hp. lia. }
  destruct H as [[-> H]|(R & Tr & H)]; [left|right]; (split; [lia|]).
  - intros p Hp. destruct (Z.eq_dec p i) as [->|]; [congruence|apply H; lia].
  - split; [exact Tr|]. intros p Hp. destruct (Z.eq_dec p i) as [->|]; [congruence|apply H; lia].
Qed.
Lemma low_step (t : Z -> bool) i r : 0 <= i -> lowest (fun p => t p = true) i r -> lowest (fun p => t p = true) (i + 1) (if r <? 0 then (if t i then i else r) else r).
Proof.
  intros I [[-> H]|(R & Tr & H)].
  - change (-1 <? 0) with true. cbn iota. destruct (t i) eqn:T; [right|left]. { split; [lia|]. split; [exact T|exact H]. } split; [reflexivity|]. intros p Hp. destruct (Z.eq_dec p i) as [->|]; [congruence|apply H; lia].
  - replace (r <? 0) with false by lia. right. split; [lia|]. split; [exact Tr|exact H].
Qed.
Lemma scan_high_all n a s : 1 <= n -> typed a n s -> exists r, scan_high n a = Ok r /\ highest (fun p => bit_at a p = true) n r.
Proof. intros N T. apply high_loop; [lia|]. intros r i Hi. rewrite (typed_get a n s i T Hi). reflexivity. Qed.
Lemma scan_low_all n a s : 1 <= n -> typed a n s -> exists r, scan_low n a = Ok r /\ lowest (fun p => bit_at a p = true) n r.
Proof.
  intros N T. apply (zrange_ofold_ind _ (fun k r => lowest (fun p => bit_at a p = true) k r)); [lia|left; split; [reflexivity|intros p Hp; lia]|].
  intros i r Hi H. apply (low_step (bit_at a) i r) in H; [|lia]. rewrite (typed_get a n s i T Hi). cbn [bind]. destruct (r <? 0); eexists; (split; [reflexivity|exact H]).
Qed.

Definition is1 (s : sym) : bool := match s with S1 => true | _ => false end.
Lemma is1_iff s : is1 s = true <-> s = S1. Proof. destruct s; split; (reflexivity || discriminate). Qed.
Lemma bool1 r : ltyped r 1 false -> logic_bool r = is1 (sym_at r 0).
Proof. destruct r as [v x]. intros [V X]. destruct (bits1 v x v V X V) as (i & j & _ & -> & -> & _). destruct i, j; reflexivity. Qed.
Lemma get1 a n s i : ltyped a n s -> 0 <= i < n -> (unknown (sym_at a i) = true -> i < 64) -> exists c, logic_get a i = Ok c /\ logic_bool c = is1 (sym_at a i).
Proof. intros T I U. destruct (l_get a n s i T I U) as (r & E & Tr & S). exists r. split; [exact E|]. rewrite bool1 by exact Tr. rewrite S. reflexivity. Qed.
Lemma highest_eq (P Q : Z -> Prop) n r : (forall p, P p <-> Q p) -> highest P n r -> highest Q n r.
Proof. intros E [[-> H]|(R & T & H)]; [left|right; split; [exact R|]]; (split; [reflexivity || (apply E; exact T)|]); intros p Hp X; apply E in X; exact (H p Hp X). Qed.
Lemma lowest_eq (P Q : Z -> Prop) n r : (forall p, P p <-> Q p) -> lowest P n r -> lowest Q n r.
Proof. intros E [[-> H]|(R & T & H)]; [left|right; split; [exact R|]]; (split; [reflexivity || (apply E; exact T)|]); intros p Hp X; apply E in X; exact (H p Hp X). Qed.
Lemma scan_high4_all n a s : 1 <= n -> ltyped a n s -> (forall p, 64 <= p < n -> unknown (sym_at a p) = false) -> exists r, scan_high4 n a = Ok r /\ highest (fun p => sym_at a p = S1) n r.
Proof.
  intros N T U. destruct (high_loop (fun r i => let! c := logic_get a i in Ok (if logic_bool c then i else r)) (fun i => is1 (sym_at a i)) n) as (r & E & H); [lia| |].
  - intros r i Hi. destruct (get1 a n s i T Hi) as (c & -> & B). { intros X. destruct (Z_lt_le_dec i 64); [assumption|]. rewrite U in X by lia. discriminate. } cbn [bind]. rewrite B. reflexivity.
  - exists r. split; [exact E|]. apply (highest_eq _ _ n r (fun p => is1_iff (sym_at a p)) H).
Qed.
Lemma scan_high4_exact n a s : 1 <= n -> ltyped a n s -> ((exists r, scan_high4 n a = Ok r /\ highest (fun p => sym_at a p = S1) n r) <-> forall p, 64 <= p < n -> unknown (sym_at a p) = false) /\
  (scan_high4 n a = UB <-> exists p, 64 <= p < n /\ unknown (sym_at a p) = true).
Proof.
  intros N T. assert (B : forall p, 64 <= p < n -> unknown (sym_at a p) = true -> scan_high4 n a = UB).
  { intros p Hp X. apply (zofold_ub _ (fun _ _ => True) n p _ 0 (-1) eq_refl); [lia|exact I| |intros r _; rewrite (unread a n s p N T Hp X); reflexivity].
    intros i r Hi _. destruct (Z_le_gt_dec 64 i) as [L|L]; [destruct (unknown (sym_at a i)) eqn:Y|].
    - left. rewrite (unread a n s i N T ltac:(lia) Y). reflexivity.
    - right. destruct (get1 a n s i T ltac:(lia) ltac:(rewrite Y; discriminate)) as (c & -> & _). eexists. split; [reflexivity|exact I].
    - right. destruct (get1 a n s i T ltac:(lia) ltac:(intros _; lia)) as (c & -> & _). eexists. split; [reflexivity|exact I]. }
  split; split.
  - intros (r & E & _) p Hp. destruct (unknown (sym_at a p)) eqn:X; [|reflexivity]. rewrite (B p Hp X) in E. discriminate.
  - intros U. apply (scan_high4_all n a s N T U).
  - intros E. destruct (existsb (fun p => unknown (sym_at a p)) (zrange 64 n)) eqn:X.
    + apply existsb_exists in X as (p & Hp & X). apply in_zrange in Hp. exists p. split; [lia|exact X].
    + exfalso. destruct (scan_high4_all n a s N T) as (r & E' & _); [|rewrite E' in E; discriminate]. intros p Hp. destruct (unknown (sym_at a p)) eqn:Y; [|reflexivity].
      assert (Z0 : existsb (fun p => unknown (sym_at a p)) (zrange 64 n) = true) by (apply existsb_exists; exists p; split; [apply in_zrange; lia|exact Y]). congruence.
  - intros (p & Hp & X). apply (B p Hp X).
Qed.
Definition covered (a : logic) n := forall p, 64 <= p < n -> unknown (sym_at a p) = true -> exists q, 0 <= q < p /\ sym_at a q = S1.
Lemma scan_low4_all n a s : 1 <= n -> ltyped a n s -> covered a n -> exists r, scan_low4 n a = Ok r /\ lowest (fun p => sym_at a p = S1) n r.
Proof.
  intros N T U. destruct (zrange_ofold_ind (fun r i => if r <? 0 then let! c := logic_get a i in Ok (if logic_bool c then i else r) else Ok r) (fun k r => lowest (fun p => is1 (sym_at a p) = true) k r) 0 n (-1)) as (r & E & H); [lia|left; split; [reflexivity|intros p Hp; lia]| |].
  - intros i r Hi H. pose proof H as H0. apply (low_step (fun p => is1 (sym_at a p)) i r) in H; [|lia]. destruct (Z.ltb_spec r 0) as [L|L]; [|eexists; split; [reflexivity|exact H]].
    destruct (get1 a n s i T Hi) as (c & -> & B). { intros X. destruct (Z_lt_le_dec i 64); [assumption|]. exfalso. destruct (U i ltac:(lia) X) as (q & Hq & S). destruct H0 as [[_ H0]|(R & _)]; [|lia]. apply (H0 q ltac:(lia)). apply is1_iff. exact S. }
    cbn [bind]. rewrite B. eexists. split; [reflexivity|exact H].
  - exists r. split; [exact E|]. apply (lowest_eq _ _ n r (fun p => is1_iff (sym_at a p)) H).
Qed.
Lemma scan_low4_exact n a s : 1 <= n -> ltyped a n s -> ((exists r, scan_low4 n a = Ok r /\ lowest (fun p => sym_at a p = S1) n r) <-> covered a n).
Proof.
  intros N T. split; [|apply (scan_low4_all n a s N T)]. intros (r & E & _) p Hp X. destruct (existsb (fun q => is1 (sym_at a q)) (zrange 0 p)) eqn:Y.
  - apply existsb_exists in Y as (q & Hq & Y). apply in_zrange in Hq. exists q. split; [lia|]. apply is1_iff. exact Y.
  - exfalso. assert (B : scan_low4 n a = UB); [|rewrite B in E; discriminate].
    apply (zofold_ub _ (fun _ r => r = -1) n p _ 0 (-1) eq_refl); [lia|reflexivity| |].
    + intros i r' Hi ->. change (-1 <? 0) with true. cbn iota. destruct (Z_le_gt_dec 64 i) as [L|L]; [destruct (unknown (sym_at a i)) eqn:W|].
      * left. rewrite (unread a n s i N T ltac:(lia) W). reflexivity.
      * right. destruct (get1 a n s i T ltac:(lia) ltac:(rewrite W; discriminate)) as (c & -> & B). cbn [bind]. rewrite B. destruct (is1 (sym_at a i)) eqn:V; [|eexists; split; reflexivity]. exfalso. assert (existsb (fun q => is1 (sym_at a q)) (zrange 0 p) = true) by (apply existsb_exists; exists i; split; [apply in_zrange; lia|exact V]). congruence.
      * right. destruct (get1 a n s i T ltac:(lia) ltac:(intros _; lia)) as (c & -> & B). cbn [bind]. rewrite B. destruct (is1 (sym_at a i)) eqn:V; [|eexists; split; reflexivity]. exfalso. assert (existsb (fun q => is1 (sym_at a q)) (zrange 0 p) = true) by (apply existsb_exists; exists i; split; [apply in_zrange; lia|exact V]). congruence.
    + intros r' ->. change (-1 <? 0) with true. cbn iota. rewrite (unread a n s p N T Hp X). reflexivity.
Qed.

(** * the comparator *)
Lemma scan_less_all n s a b : 1 <= n -> typed a n s -> typed b n s -> scan_less n s a b = Ok (value a <? value b).
Proof.
  intros N A B. unfold scan_less.
  destruct (zrange_ofold_ind (fun c i => let! x := bit_get a i in let! y := bit_get b i in Ok (if xorb x y then y else c)) (fun k c => c = (num a mod 2 ^ k <? num b mod 2 ^ k)) 0 (n - 1) false) as (c & E & H); [lia|rewrite !Z.mod_1_r; reflexivity| |].
  - intros i c Hi ->. rewrite (typed_get a n s i A), (typed_get b n s i B) by lia. cbn [bind]. eexists. split; [reflexivity|]. rewrite !mod_next by lia. unfold bit_at.
    pose proof (Z.mod_pos_bound (num a) (2 ^ i) (pow2_pos i ltac:(lia))). pose proof (Z.mod_pos_bound (num b) (2 ^ i) (pow2_pos i ltac:(lia))). destruct (Z.testbit (num a) i), (Z.testbit (num b) i); cbn [xorb Z.b2z]; rewrite ?Z.mul_1_r, ?Z.mul_0_r, ?Z.add_0_r; lia.
  - rewrite E. cbn [bind]. rewrite (typed_get a n s (n - 1) A), (typed_get b n s (n - 1) B) by lia. cbn [bind]. f_equal. rewrite H. unfold bit_at, value, snum. destruct A as (Va & Pa & Sa) , B as (Vb & Pb & Sb). rewrite Sa, Sb.
    assert (Wa : bw a = n) by (apply (typed_bw a n s N); split; [exact Va|split; [exact Pa|exact Sa]]). assert (Wb : bw b = n) by (apply (typed_bw b n s N); split; [exact Vb|split; [exact Pb|exact Sb]]). rewrite Wa, Wb. unfold twos.
    assert (R : forall x, bw x = n -> num x = num x mod 2 ^ (n - 1) + 2 ^ (n - 1) * Z.b2z (Z.testbit (num x) (n - 1))).
    { intros x W. rewrite <- mod_next by lia. replace (n - 1 + 1) with n by lia. symmetry. apply Z.mod_small. unfold num. rewrite W. apply Z.mod_pos_bound. apply pow2_pos. lia. }
    pose proof (R a Wa) as Ra. pose proof (R b Wb) as Rb. pose proof (pow2_pos (n - 1) ltac:(lia)) as P. pose proof (Z.mod_pos_bound (num a) (2 ^ (n - 1)) P). pose proof (Z.mod_pos_bound (num b) (2 ^ (n - 1)) P).
    assert (P2 : 2 ^ n = 2 * 2 ^ (n - 1)) by (rewrite <- Z.pow_succ_r by lia; f_equal; lia).
    destruct (Z.testbit (num a) (n - 1)), (Z.testbit (num b) (n - 1)); cbn [xorb Z.b2z] in *; rewrite ?Z.mul_1_r, ?Z.mul_0_r, ?Z.add_0_r in Ra, Rb; destruct s; lia.
Qed.
