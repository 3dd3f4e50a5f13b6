(** Programs over unsigned vectors of one width run in lockstep with programs over the stored numbers. *)
From Coq Require Import ZArith List Bool Lia.
From Verif Require Import Cpp ZBits BigNum Bit Spec SpecExact SpecMachine SpecWide Client Program SpecProg BitOps BitMain WideProofs WideProofs2 WideProofs3 Iff3 Iff25.
Import ListNotations.
Open Scope Z_scope.
Local Ltac Zify.zify_post_hook ::= idtac.

Lemma room_range n : 2 <= n -> n <= room n /\ 8 <= room n /\ (n <= 64 -> room n = storage n /\ room n <= computing n) /\ (65 <= n -> room n = capacity n).
Proof.
  intros H. unfold room. destruct (Z.leb_spec n 64) as [L|L].
  - destruct (MachineProofs.storage_cases n ltac:(lia)) as (A & B & C & _). repeat split; try lia.
  - assert (n <= capacity n). { unfold capacity, words_in. pose proof (Z.div_mod (n + 63) 64 ltac:(lia)). pose proof (Z.mod_pos_bound (n + 63) 64 ltac:(lia)). lia. }
    repeat split; lia.
Qed.
Lemma room_pos n : 2 <= n -> 0 < 2 ^ room n.
Proof. intros H. apply Z.pow_pos_nonneg; [lia|]. pose proof (room_range n H). lia. Qed.
Lemma kept_stored n z : 2 <= n -> stored (vec_of n false z) = z mod 2 ^ room n.
Proof.
  intros H. unfold room. destruct (Z.leb_spec n 64) as [L|L].
  - rewrite vec_of_small by lia. unfold stored, vector. cbn [bval]. unfold store. replace (n =? 1) with false by lia. reflexivity.
  - rewrite vec_of_wide by lia. unfold stored. cbn [bval]. apply words_of_num. lia.
Qed.
Lemma kept_mod n z : 2 <= n < 2 ^ 31 -> vec_of n false (z mod 2 ^ room n) = vec_of n false z.
Proof.
  intros H. rewrite <- kept_stored by lia. pose proof (vec_of_vec n false z ltac:(lia)) as V. pose proof (FourProofs2.stored_object_vec _ V) as E.
  unfold rewritten in E. exact E.
Qed.

Section Width.
Variable n : Z.
Hypothesis Hn : 2 <= n < 2 ^ 31.
Let V z := vec_of n false z.
Let ok z := 0 <= z < 2 ^ room n.

Lemma V_stored z : ok z -> stored (V z) = z.
Proof. intros O. unfold V. rewrite kept_stored by lia. apply Z.mod_small. exact O. Qed.
Lemma V_vec z : vec (V z). Proof. apply vec_of_vec. lia. Qed.
Lemma V_bw z : bw (V z) = n. Proof. apply vec_of_bw. lia. Qed.
Lemma V_small z : small (V z) = (n <=? 64). Proof. unfold small. now rewrite V_bw. Qed.
Lemma V_pairs x y : pairs_up (V x) (V y) = true.
Proof. unfold pairs_up. rewrite !V_bw, Z.eqb_refl. cbn. lia. Qed.
Lemma V_wider x y : wider (V x) (V y) = n. Proof. unfold wider. rewrite !V_bw. lia. Qed.
Lemma V_widened z m : ok z -> m = n -> widened (V z) m = z.
Proof. intros O ->. unfold widened. rewrite V_bw, Z.eqb_refl. now apply V_stored. Qed.
Lemma V_combined f x y : ok x -> ok y -> combined f (V x) (V y) = omap V (f x y).
Proof.
  intros X Y. unfold combined. rewrite V_pairs, V_wider. cbn [negb]. rewrite !V_widened by auto. unfold omap, bind. change (both_signed (V x) (V y)) with false.
  destruct (f x y); reflexivity.
Qed.
Lemma ok_mod z : ok (z mod 2 ^ room n).
Proof. apply Z.mod_pos_bound, room_pos. lia. Qed.
Lemma V_norm z : V z = V (z mod 2 ^ room n). Proof. symmetry. apply kept_mod. lia. Qed.
Lemma V_computed op u x y : n <= 64 -> ok x -> ok y ->
  computed op u (V x) (V y) = if u || ((n <=? 16) && negb (fitting 32 (op x y))) then UB else Ok (V (op x y)).
Proof.
  intros L X Y. unfold computed. rewrite V_pairs, V_wider. cbn [negb]. change (bsgn (V x)) with false. change (bsgn (V y)) with false.
  destruct (room_range n ltac:(lia)) as (_ & _ & R & _). destruct (R L) as [_ R2].
  assert (P : 2 ^ room n <= 2 ^ computing n) by (apply Z.pow_le_mono_r; lia).
  assert (Opx : operand n false false x = x). { unfold operand. destruct (with_sign n false false); [reflexivity|]. apply Z.mod_small. unfold ok in X. lia. }
  assert (Opy : operand n false false y = y). { unfold operand. destruct (with_sign n false false); [reflexivity|]. apply Z.mod_small. unfold ok in Y. lia. }
  rewrite !V_stored, Opx, Opy by assumption. unfold with_sign. rewrite andb_false_l, orb_false_r. change (both_signed (V x) (V y)) with false.
  unfold V. rewrite vec_of_small by lia. destruct (Z.leb_spec n 16) as [L'|L']; cbn [andb].
  - unfold computing. replace (n <=? 32) with true by lia. reflexivity.
  - reflexivity.
Qed.
Lemma ok16 x : n <= 16 -> ok x -> 0 <= x < 2 ^ 16.
Proof. intros L X. unfold ok in X. destruct (room_range n ltac:(lia)) as (_ & _ & R & _). destruct (R ltac:(lia)) as [E _]. assert (room n <= 16) by (rewrite E; unfold storage; destruct (n <=? 8); destruct (n <=? 16) eqn:Q; lia).
  assert (2 ^ room n <= 2 ^ 16) by (apply Z.pow_le_mono_r; lia). lia. Qed.
Lemma fit_ok z : - 2 ^ 31 <= z < 2 ^ 31 -> negb (fitting 32 z) = false.
Proof. intros H. unfold fitting. replace (- 2 ^ (32 - 1) <=? z) with true by lia. replace (z <? 2 ^ (32 - 1)) with true by (change (32 - 1) with 31; lia). reflexivity. Qed.

Lemma k_add x y : ok x -> ok y -> bit_add (V x) (V y) = Ok (V ((x + y) mod 2 ^ room n)).
Proof.
  intros X Y. rewrite add_any by apply V_vec. unfold any_sum. rewrite !V_small, <- V_norm. destruct (Z.leb_spec n 64) as [L|L]; cbn [andb].
  - rewrite V_computed by assumption. cbn [orb]. destruct (Z.leb_spec n 16) as [L'|L']; cbn [andb]; [|reflexivity]. pose proof (ok16 x L' X). pose proof (ok16 y L' Y). rewrite fit_ok by lia. reflexivity.
  - rewrite V_combined by assumption. reflexivity.
Qed.
Lemma k_sub x y : ok x -> ok y -> bit_sub (V x) (V y) = Ok (V ((x - y) mod 2 ^ room n)).
Proof.
  intros X Y. rewrite sub_any by apply V_vec. unfold any_difference. rewrite !V_small, <- V_norm. destruct (Z.leb_spec n 64) as [L|L]; cbn [andb].
  - rewrite V_computed by assumption. cbn [orb]. destruct (Z.leb_spec n 16) as [L'|L']; cbn [andb]; [|reflexivity]. pose proof (ok16 x L' X). pose proof (ok16 y L' Y). rewrite fit_ok by lia. reflexivity.
  - rewrite V_combined by assumption. reflexivity.
Qed.
Lemma k_mul x y : ok x -> ok y -> bit_mul (V x) (V y) = omap V (kept_product n x y).
Proof.
  intros X Y. rewrite mul_any by apply V_vec. unfold any_product, kept_product. rewrite !V_small. destruct (Z.leb_spec n 64) as [L|L]; cbn [andb].
  - rewrite V_computed by assumption. cbn [orb]. destruct (Z.leb_spec n 16) as [L'|L']; cbn [andb]; [|cbn [omap bind]; rewrite <- V_norm; reflexivity].
    pose proof (ok16 x L' X). pose proof (ok16 y L' Y). destruct (Z.leb_spec (2 ^ 31) (x * y)) as [B|B].
    + unfold fitting. replace (x * y <? 2 ^ (32 - 1)) with false by (change (32 - 1) with 31; lia). rewrite andb_false_r. reflexivity.
    + rewrite fit_ok by nia. cbn [omap bind]. rewrite <- V_norm. reflexivity.
  - rewrite V_combined by assumption. rewrite V_wider. destruct (seems_small n x && seems_small n y). { cbn [omap bind]. rewrite <- V_norm. reflexivity. }
    destruct ((x =? 0) || (y =? 0)); [reflexivity|]. destruct (_ <? _); [|reflexivity]. cbn [omap bind]. rewrite <- V_norm. reflexivity.
Qed.
Lemma ok_lt x : n <= 64 -> ok x -> 0 <= x < 2 ^ 64.
Proof. intros L X. unfold ok in X. destruct (room_range n ltac:(lia)) as (_ & _ & R & _). destruct (R L) as [_ B]. assert (room n <= 64) by (unfold computing in B; destruct (n <=? 32); lia). assert (2 ^ room n <= 2 ^ 64) by (apply Z.pow_le_mono_r; lia). lia. Qed.
Lemma k_div x y : ok x -> ok y -> bit_div (V x) (V y) = omap V (omap fst (kept_division n x y)).
Proof.
  intros X Y. rewrite div_any by apply V_vec. unfold any_quotient, kept_division. rewrite !V_small. destruct (Z.leb_spec n 64) as [L|L]; cbn [andb].
  - rewrite V_computed, V_stored by assumption. destruct (Z.eqb_spec y 0) as [E|E]; cbn [orb]; [reflexivity|].
    rewrite Z.quot_div_nonneg by (unfold ok in *; lia). destruct (Z.leb_spec n 16) as [L'|L']; cbn [andb]; [|reflexivity].
    pose proof (ok16 x L' X). pose proof (ok16 y L' Y). assert (0 <= x / y <= x). { split; [apply Z.div_pos; lia|]. apply Z.div_le_upper_bound; [lia|]. nia. } rewrite fit_ok by lia. reflexivity.
  - rewrite V_combined by assumption. change (bsgn (V x)) with false. cbn iota. rewrite V_wider. destruct (divided n x y) as [[q r]| | | |]; try reflexivity. cbn [omap bind fst]. rewrite <- V_norm. reflexivity.
Qed.
Lemma k_rem x y : ok x -> ok y -> bit_rem (V x) (V y) = omap V (omap snd (kept_division n x y)).
Proof.
  intros X Y. rewrite rem_any by apply V_vec. unfold any_remainder, kept_division. rewrite !V_small. destruct (Z.leb_spec n 64) as [L|L]; cbn [andb].
  - unfold remainder. rewrite V_pairs, V_wider, !V_stored by assumption. cbn [negb]. destruct (Z.eqb_spec y 0) as [E|E]; cbn [orb]; [reflexivity|].
    change (bsgn (V x)) with false. change (bsgn (V y)) with false.
    destruct (room_range n ltac:(lia)) as (_ & _ & R & _). destruct (R L) as [_ R2].
    assert (P : 2 ^ room n <= 2 ^ computing n) by (apply Z.pow_le_mono_r; lia).
    assert (Opx : operand n false false x = x). { unfold operand. destruct (with_sign n false false); [reflexivity|]. apply Z.mod_small. unfold ok in X. lia. }
    assert (Opy : operand n false false y = y). { unfold operand. destruct (with_sign n false false); [reflexivity|]. apply Z.mod_small. unfold ok in Y. lia. }
    rewrite Opx, Opy. rewrite Z.quot_div_nonneg, Z.rem_mod_nonneg by (unfold ok in *; lia). unfold with_sign. rewrite andb_false_l, orb_false_r. change (both_signed (V x) (V y)) with false.
    destruct (Z.leb_spec n 16) as [L'|L']; cbn [andb]; [|cbn [omap bind snd]; unfold V; rewrite vec_of_small by lia; reflexivity].
    pose proof (ok16 x L' X). pose proof (ok16 y L' Y). assert (0 <= x / y <= x). { split; [apply Z.div_pos; lia|]. apply Z.div_le_upper_bound; [lia|]. nia. }
    unfold computing. replace (n <=? 32) with true by lia. rewrite fit_ok by lia. cbn [omap bind snd]. unfold V. rewrite vec_of_small by lia. reflexivity.
  - rewrite V_combined by assumption. change (bsgn (V x)) with false. cbn iota. rewrite V_wider. destruct (divided n x y) as [[q r]| | | |]; try reflexivity. cbn [omap bind snd]. rewrite <- V_norm. reflexivity.
Qed.
Lemma k_bitwise op c x y : ok x -> ok y -> any_bitwise op c (V x) (V y) = Ok (V (if (n <=? 64) || negb c then op x y else op x y mod 2 ^ n)).
Proof.
  intros X Y. unfold any_bitwise. rewrite !V_small. destruct (Z.leb_spec n 64) as [L|L]; cbn [andb orb].
  - unfold bitwise. rewrite V_pairs, V_wider, !V_bw, Z.eqb_refl, !V_stored by assumption. cbn [negb]. change (both_signed (V x) (V y)) with false. unfold V. rewrite vec_of_small by lia. reflexivity.
  - rewrite V_combined by assumption. rewrite !V_bw, Z.eqb_refl, V_wider. cbn [negb]. rewrite orb_false_r. destruct c; reflexivity.
Qed.
Lemma k_and x y : ok x -> ok y -> bit_and (V x) (V y) = Ok (V (if n <=? 64 then Z.land x y else Z.land x y mod 2 ^ n)).
Proof. intros X Y. rewrite and_any by apply V_vec. rewrite k_bitwise by assumption. cbn [negb]. rewrite orb_false_r. reflexivity. Qed.
Lemma k_or x y : ok x -> ok y -> bit_or (V x) (V y) = Ok (V (Z.lor x y)).
Proof. intros X Y. rewrite or_any by apply V_vec. rewrite k_bitwise by assumption. cbn [negb]. rewrite orb_true_r. reflexivity. Qed.
Lemma k_xor x y : ok x -> ok y -> bit_xor (V x) (V y) = Ok (V (Z.lxor x y)).
Proof. intros X Y. rewrite xor_any by apply V_vec. rewrite k_bitwise by assumption. cbn [negb]. rewrite orb_true_r. reflexivity. Qed.
Lemma k_not x : ok x -> bit_not (V x) = V (2 ^ room n - 1 - x).
Proof.
  intros X. rewrite not_any by apply V_vec. unfold any_inverse, inverse. rewrite V_small, V_bw, V_stored by assumption. replace (n =? 1) with false by lia.
  rewrite (V_norm (2 ^ room n - 1 - x)). replace ((2 ^ room n - 1 - x) mod 2 ^ room n) with ((- x - 1) mod 2 ^ room n).
  - rewrite <- V_norm. unfold V. destruct (Z.leb_spec n 64); [rewrite vec_of_small by lia|]; reflexivity.
  - replace (2 ^ room n - 1 - x) with (- x - 1 + 1 * 2 ^ room n) by lia. symmetry. apply Z.mod_add. pose proof (room_pos n ltac:(lia)). lia.
Qed.
Lemma k_neg x : ok x -> bit_neg (V x) = if n <=? 64 then Ok (V ((- x) mod 2 ^ room n)) else IllFormed.
Proof.
  intros X. rewrite neg_any by apply V_vec. unfold any_minus. rewrite V_small. destruct (Z.leb_spec n 64) as [L|L]; [|reflexivity].
  unfold negated. change (bsgn (V x)) with false. rewrite andb_false_r, andb_false_l, <- V_norm, V_stored by assumption. rewrite <- rewritten_small by (rewrite V_bw; lia). reflexivity.
Qed.
Lemma k_shl x k : ok x -> vec k -> bit_shl (V x) k = omap V (kept_left n x k).
Proof.
  intros X K. rewrite shl_any by (try apply V_vec; assumption). unfold any_left, any_shift, kept_left. rewrite V_small. destruct (Z.leb_spec n 64) as [L|L].
  - destruct (small k); [|reflexivity]. cbn [negb]. unfold shifted_left, shiftable, SpecMachine.amount. rewrite V_bw, V_stored by assumption. change (bsgn (V x)) with false.
    destruct (room_range n ltac:(lia)) as (_ & _ & R & _). destruct (R L) as [E _]. unfold store. replace (n =? 1) with false by lia. unfold wrap. rewrite <- E.
    pose proof (Z.mod_pos_bound (stored k) (2 ^ room n) (room_pos n ltac:(lia))). replace (0 <=? stored k mod 2 ^ room n) with true by lia. cbn [andb].
    destruct (_ <? _); [|reflexivity]. cbn [omap bind]. rewrite <- V_norm. change (both_signed (V x) k) with false. unfold V. rewrite vec_of_small by lia. reflexivity.
  - rewrite V_bw, V_stored by assumption. reflexivity.
Qed.
Lemma V_num z : ok z -> num (V z) = z mod 2 ^ n. Proof. intros O. unfold V. apply vec_of_num. lia. Qed.
Lemma k_shr x k : ok x -> vec k -> bit_shr (V x) k = omap V (kept_right n x k).
Proof.
  intros X K. rewrite shr_any by (try apply V_vec; assumption). unfold any_right, any_shift, kept_right. rewrite V_small. destruct (Z.leb_spec n 64) as [L|L].
  - destruct (small k); [|reflexivity]. cbn [negb]. unfold shifted_right. rewrite V_bw, V_stored by assumption. replace (n =? 1) with false by lia.
    destruct ((0 <=? stored k) && (stored k <? n)); [|reflexivity]. cbn [omap bind]. change (both_signed (V x) k) with false. unfold V. rewrite vec_of_small by lia. reflexivity.
  - rewrite V_bw, V_num by assumption. reflexivity.
Qed.
Lemma k_eq x y : ok x -> ok y -> bit_eq (V x) (V y) = Ok (x =? y).
Proof.
  intros X Y. rewrite eq_any by apply V_vec. unfold any_equal. rewrite !V_small. destruct (Z.leb_spec n 64) as [L|L]; cbn [andb].
  - unfold equal_native. rewrite V_bw, !V_stored by assumption. change (bsgn (V x)) with false. unfold store. replace (n =? 1) with false by lia. unfold wrap.
    destruct (room_range n ltac:(lia)) as (_ & _ & R & _). destruct (R L) as [E _]. rewrite <- E, (Z.mod_small y) by exact Y. reflexivity.
  - change (both_signed (V x) (V y)) with false. cbn iota. rewrite !V_bw, !V_stored, Z.min_id by assumption.
    destruct (room_range n ltac:(lia)) as (_ & _ & _ & R). specialize (R ltac:(lia)). unfold capacity in R. rewrite <- R, !Z.mod_small by assumption.
    rewrite !skipn_all2; [cbn; rewrite !andb_true_r; reflexivity| |]; unfold words_of.
    all: assert (Q : forall k z, length (spread k z) = k) by (induction k; intros; cbn; auto). all: rewrite Q; lia.
Qed.
Lemma k_order cmp w x y : ok x -> ok y -> (65 <= n -> w (V x) (V y) = Ok (cmp x y)) -> any_order cmp w (V x) (V y) = Ok (cmp x y).
Proof.
  intros X Y W. unfold any_order. rewrite !V_small. destruct (Z.leb_spec n 64) as [L|L]; [|apply W; lia].
  unfold ordered. change (both_signed (V x) (V y)) with false. cbn iota. rewrite !V_stored by assumption. rewrite !Z.mod_small by (apply ok_lt; assumption). reflexivity.
Qed.
Lemma k_greater x y : ok x -> ok y -> wide_greater (V x) (V y) = Ok (y <? x).
Proof. intros X Y. unfold wide_greater. change (both_signed (V x) (V y)) with false. cbn iota. rewrite !V_stored by assumption. reflexivity. Qed.
Lemma k_lt x y : ok x -> ok y -> bit_lt (V x) (V y) = Ok (x <? y).
Proof. intros X Y. rewrite lt_any by apply V_vec. unfold any_less. apply k_order; [assumption..|]. intros _. apply k_greater; assumption. Qed.
Lemma k_ge x y : ok x -> ok y -> bit_ge (V x) (V y) = Ok (y <=? x).
Proof.
  intros X Y. rewrite ge_any by apply V_vec. unfold any_greater_equal. rewrite (k_order Z.geb wide_greater_equal x y X Y).
  - f_equal. apply Z.geb_leb.
  - intros _. unfold wide_greater_equal. rewrite <- eq_any, k_eq, k_greater by (assumption || apply V_vec). f_equal. rewrite Z.geb_leb. lia.
Qed.

(** results stay in range *)
Lemma pow_in z : 0 <= z < 2 ^ n -> ok z.
Proof. intros H. unfold ok. destruct (room_range n ltac:(lia)) as (A & _). assert (2 ^ n <= 2 ^ room n) by (apply Z.pow_le_mono_r; lia). lia. Qed.
Lemma ok_land x y : ok x -> ok y -> ok (Z.land x y).
Proof. intros X Y. unfold ok in *. assert (0 <= Z.land x y) by (apply Z.land_nonneg; lia). split; [assumption|]. rewrite <- (Z.mod_small x (2 ^ room n)), <- (Z.land_ones x) by (lia || (pose proof (room_range n ltac:(lia)); lia)). rewrite <- Z.land_assoc, (Z.land_comm _ y), Z.land_assoc, Z.land_ones by (pose proof (room_range n ltac:(lia)); lia). apply Z.mod_pos_bound, room_pos. lia. Qed.
Lemma ok_lor x y : ok x -> ok y -> ok (Z.lor x y).
Proof.
  intros X Y. pose proof (room_range n ltac:(lia)) as (_ & R & _). replace (Z.lor x y) with (Z.lor x y mod 2 ^ room n); [apply ok_mod|]. rewrite <- Z.land_ones, Z.land_lor_distr_l, !Z.land_ones, !Z.mod_small by (assumption || lia). reflexivity.
Qed.
Lemma ok_lxor x y : ok x -> ok y -> ok (Z.lxor x y).
Proof.
  intros X Y. pose proof (room_range n ltac:(lia)) as (_ & R & _). replace (Z.lxor x y) with (Z.lxor x y mod 2 ^ room n); [apply ok_mod|].
  apply Z.bits_inj'. intros p Hp. destruct (Z.ltb_spec p (room n)) as [L|L]; [rewrite Z.mod_pow2_bits_low by lia; reflexivity|].
  rewrite Z.mod_pow2_bits_high, Z.lxor_spec by lia. rewrite <- (Z.mod_small x (2 ^ room n)), <- (Z.mod_small y (2 ^ room n)), !Z.mod_pow2_bits_high by (assumption || lia). reflexivity.
Qed.

Definition fine (r : outcome bit) (s : outcome Z) : Prop := r = omap V s /\ forall z, s = Ok z -> ok z.
Lemma fine_bind r s (f : bit -> outcome bit) (g : Z -> outcome Z) : fine r s -> (forall z, ok z -> fine (f (V z)) (g z)) -> fine (bind r f) (bind s g).
Proof. intros [-> O] H. destruct s as [z| | | |]; [|split; [reflexivity|discriminate]..]. cbn [omap bind]. apply H. now apply O. Qed.
Lemma fine_ok z : ok z -> fine (Ok (V z)) (Ok z). Proof. intros O. split; [reflexivity|]. intros z' [= <-]. exact O. Qed.

Lemma kept_eval e : amounts vec e -> forall env st, (forall k, ok (st k) /\ env k = V (st k)) -> fine (eval env e) (kept n st e).
Proof.
  pose proof (room_pos n ltac:(lia)) as RP. pose proof (room_range n ltac:(lia)) as (Rn & _ & Rs & _).
  induction e as [k|e IH|e IH|e IHe f IHf|e IHe f IHf|e IHe f IHf|e IHe f IHf|e IHe f IHf|e IHe f IHf|e IHe f IHf|e IHe f IHf|e IH k|e IH k]; cbn [amounts eval kept]; intros A env st E.
  - destruct (E k) as [O ->]. now apply fine_ok.
  - specialize (IH A env st E). unfold omap at 1. apply fine_bind; [exact IH|]. intros z O. cbn [bind]. rewrite k_not by exact O. apply fine_ok. unfold ok in *. lia.
  - apply fine_bind; [now apply IH|]. intros z O. rewrite k_neg by exact O. destruct (n <=? 64); [apply fine_ok, ok_mod|split; [reflexivity|discriminate]].
  - destruct A. apply fine_bind; [now apply IHe|]. intros x X. apply fine_bind; [now apply IHf|]. intros y Y. rewrite k_and by assumption. apply fine_ok. destruct (n <=? 64); [now apply ok_land|]. apply pow_in, Z.mod_pos_bound. apply Z.pow_pos_nonneg; lia.
  - destruct A. apply fine_bind; [now apply IHe|]. intros x X. apply fine_bind; [now apply IHf|]. intros y Y. rewrite k_or by assumption. apply fine_ok. now apply ok_lor.
  - destruct A. apply fine_bind; [now apply IHe|]. intros x X. apply fine_bind; [now apply IHf|]. intros y Y. rewrite k_xor by assumption. apply fine_ok. now apply ok_lxor.
  - destruct A. apply fine_bind; [now apply IHe|]. intros x X. apply fine_bind; [now apply IHf|]. intros y Y. rewrite k_add by assumption. apply fine_ok, ok_mod.
  - destruct A. apply fine_bind; [now apply IHe|]. intros x X. apply fine_bind; [now apply IHf|]. intros y Y. rewrite k_sub by assumption. apply fine_ok, ok_mod.
  - destruct A. apply fine_bind; [now apply IHe|]. intros x X. apply fine_bind; [now apply IHf|]. intros y Y. split; [now apply k_mul|]. intros z. unfold kept_product.
    repeat match goal with |- context [if ?c then _ else _] => destruct c end; intros [= <-]; try apply ok_mod. unfold ok. lia.
  - destruct A. apply fine_bind; [now apply IHe|]. intros x X. apply fine_bind; [now apply IHf|]. intros y Y. split; [now apply k_div|]. intros z. unfold kept_division.
    destruct (n <=? 64).
    + destruct (Z.eqb_spec y 0) as [Q|Q]; intros [= <-]. unfold ok in *. split; [apply Z.div_pos; lia|]. apply Z.le_lt_trans with x; [|lia]. apply Z.div_le_upper_bound; [lia|]. nia.
    + destruct (divided n x y) as [[q r]| | | |]; intros [= <-]. apply ok_mod.
  - destruct A. apply fine_bind; [now apply IHe|]. intros x X. apply fine_bind; [now apply IHf|]. intros y Y. split; [now apply k_rem|]. intros z. unfold kept_division.
    destruct (n <=? 64).
    + destruct (Z.eqb_spec y 0) as [Q|Q]; intros [= <-]. unfold ok in *. pose proof (Z.mod_pos_bound x y ltac:(lia)). lia.
    + destruct (divided n x y) as [[q r]| | | |]; intros [= <-]. apply ok_mod.
  - destruct A as [A K]. apply fine_bind; [now apply IH|]. intros x X. split; [now apply k_shl|]. intros z. unfold kept_left.
    destruct (n <=? 64); [destruct (negb (small k)); [discriminate|]; destruct (_ <? _); [|discriminate]; intros [= <-]; apply ok_mod|]. intros [= <-]. apply pow_in, Z.mod_pos_bound, Z.pow_pos_nonneg; lia.
  - destruct A as [A K]. apply fine_bind; [now apply IH|]. intros x X. split; [now apply k_shr|]. intros z. unfold kept_right.
    destruct (n <=? 64).
    + destruct (negb (small k)); [discriminate|]. destruct ((0 <=? stored k) && (stored k <? n)) eqn:Q; [|discriminate]. intros [= <-]. apply pow_in. apply andb_true_iff in Q. destruct Q.
      assert (0 < 2 ^ (n - stored k)) by (apply Z.pow_pos_nonneg; lia). pose proof (Z.mod_pos_bound (x / 2 ^ stored k) (2 ^ (n - stored k)) ltac:(lia)).
      assert (2 ^ (n - stored k) <= 2 ^ n) by (apply Z.pow_le_mono_r; lia). lia.
    + intros [= <-]. apply pow_in. assert (0 < 2 ^ n) by (apply Z.pow_pos_nonneg; lia). pose proof (Z.mod_pos_bound x (2 ^ n) ltac:(lia)) as M.
      assert (0 <= any_amount k). { unfold any_amount. destruct (small k) eqn:Sk; [apply Z.mod_pos_bound; lia|]. destruct (BitProofs.vec_cases k K) as [(v & Ek & Nk & _)|(ws & Ek & Nk & Wk & Sk')]; [unfold small in Sk; lia|]. rewrite Sk'. apply Words.words_num_nonneg, (proj1 Wk). }
      assert (0 < 2 ^ any_amount k) by (apply Z.pow_pos_nonneg; lia). split; [apply Z.div_pos; lia|]. apply Z.le_lt_trans with (x mod 2 ^ n); [|lia]. apply Z.div_le_upper_bound; [lia|]. nia.
Qed.
Lemma kept_tests b : amounts_cond vec b -> forall env st, (forall k, ok (st k) /\ env k = V (st k)) -> test env b = kept_test n st b.
Proof.
  intros A env st E. destruct b as [e f|e f|e f]; destruct A as [Ae Af]; cbn [test kept_test].
  all: destruct (kept_eval e Ae env st E) as [-> Oe]; destruct (kept n st e) as [x| | | |]; try reflexivity; cbn [omap bind].
  all: destruct (kept_eval f Af env st E) as [-> Of]; destruct (kept n st f) as [y| | | |]; try reflexivity; cbn [omap bind].
  - apply k_eq; auto.
  - apply k_lt; auto.
  - apply k_ge; auto.
Qed.
Lemma kept_runs fuel : forall c, amounts_cmd vec c -> forall env st, (forall k, ok (st k) /\ env k = V (st k)) ->
  match exec fuel env c, kept_exec n fuel st c with
  | Ok env', Ok st' => forall k, ok (st' k) /\ env' k = V (st' k)
  | UB, UB | Fuel, Fuel | Exn, Exn | IllFormed, IllFormed => True
  | _, _ => False
  end.
Proof.
  induction fuel as [|fuel IH]; intros c A env st E; [exact I|]. destruct c as [|k e|c d|b c d|b c]; cbn [exec kept_exec amounts_cmd] in *.
  - exact E.
  - destruct (kept_eval e A env st E) as [-> O]. destruct (kept n st e) as [x| | | |]; try exact I. cbn [omap bind]. intros j. unfold upd. destruct (Nat.eqb j k); [split; auto|apply E].
  - destruct A as [Ac Ad]. specialize (IH c Ac env st E) as H. destruct (exec fuel env c), (kept_exec n fuel st c); try exact I; try contradiction. cbn [bind]. apply IH; assumption.
  - destruct A as (Ab & Ac & Ad). rewrite (kept_tests b Ab env st E). destruct (kept_test n st b) as [t| | | |]; try exact I. cbn [bind]. destruct t; apply IH; assumption.
  - destruct A as (Ab & Ac). rewrite (kept_tests b Ab env st E). destruct (kept_test n st b) as [t| | | |]; try exact I. cbn [bind]. destruct t; [|exact E].
    specialize (IH c Ac env st E) as H. destruct (exec fuel env c), (kept_exec n fuel st c); try exact I; try contradiction. cbn [bind]. apply IH; [cbn [amounts_cmd]; auto|assumption].
Qed.
End Width.

Lemma kept_expression n env st e : 2 <= n < 2 ^ 31 -> amounts vec e -> (forall k, 0 <= st k < 2 ^ room n /\ env k = vec_of n false (st k)) ->
  eval env e = omap (vec_of n false) (kept n st e) /\ forall z, kept n st e = Ok z -> 0 <= z < 2 ^ room n.
Proof. intros Hn A E. exact (kept_eval n Hn e A env st E). Qed.
Lemma kept_program n fuel env st c : 2 <= n < 2 ^ 31 -> amounts_cmd vec c -> (forall k, 0 <= st k < 2 ^ room n /\ env k = vec_of n false (st k)) ->
  same_kept n (exec fuel env c) (kept_exec n fuel st c).
Proof.
  intros Hn A E. pose proof (kept_runs n Hn fuel c A env st E) as H. unfold same_kept. destruct (exec fuel env c), (kept_exec n fuel st c); try exact I; try contradiction. intros k. apply H.
Qed.
(** every state is such a state *)
Lemma kept_state n b : 2 <= n < 2 ^ 31 -> typed b n false -> 0 <= stored b < 2 ^ room n /\ b = vec_of n false (stored b).
Proof.
  intros Hn (V & (Em & El) & Es). assert (W : bw b = n) by (unfold bw, width; rewrite Em, El; lia). assert (B : b = vec_of n false (stored b)).
  { rewrite <- (FourProofs2.stored_object_vec b V) at 1. unfold rewritten, vec_of. rewrite Em, El, Es. reflexivity. }
  split; [|exact B]. rewrite B, kept_stored by lia. apply Z.mod_pos_bound, room_pos. lia.
Qed.

(** * widths 8, 16, 32 and 64: the program does what it does over the integers, or its behaviour is undefined *)
Lemma full_room n : full_width n -> n <= 64 -> 2 <= n < 2 ^ 31 /\ room n = n.
Proof. intros [-> | [-> | [-> | [-> | [H _]]]]] L; try lia; (split; [lia|reflexivity]). Qed.
Lemma amounts_weaken (P Q : bit -> Prop) e : (forall k, P k -> Q k) -> amounts P e -> amounts Q e.
Proof. intros W. induction e; cbn [amounts]; intros A; try tauto; destruct A; split; auto. Qed.
Lemma amounts_cond_weaken (P Q : bit -> Prop) b : (forall k, P k -> Q k) -> amounts_cond P b -> amounts_cond Q b.
Proof. intros W. destruct b; cbn; intros []; split; eapply amounts_weaken; eauto. Qed.
Lemma amounts_cmd_weaken (P Q : bit -> Prop) c : (forall k, P k -> Q k) -> amounts_cmd P c -> amounts_cmd Q c.
Proof.
  intros W. induction c; cbn [amounts_cmd]; intros A.
  - exact I.
  - eapply amounts_weaken; eauto.
  - destruct A; auto.
  - destruct A as (? & ? & ?). repeat split; auto. eapply amounts_cond_weaken; eauto.
  - destruct A as (? & ?). repeat split; auto. eapply amounts_cond_weaken; eauto.
Qed.

Section Full.
Variable n : Z.
Hypothesis F : full_width n.
Hypothesis L : n <= 64.
(** [s] is undefined or the same as [t] *)
Definition below {A} (s t : outcome A) : Prop := s = UB \/ s = t.
Lemma below_bind A B (s t : outcome A) (f g : A -> outcome B) : below s t -> (forall x, s = Ok x -> below (f x) (g x)) -> below (bind s f) (bind t g).
Proof. intros [-> | ->] H; [left; reflexivity|]. destruct t; [|right; reflexivity..]. cbn [bind]. now apply H. Qed.
Lemma kept_below e : amounts (narrow_amount n) e -> forall st, (forall k, 0 <= st k < 2 ^ n) -> below (kept n st e) (value_of n st e).
Proof.
  destruct (full_room n F L) as [Hn R]. assert (LE : (n <=? 64) = true) by lia.
  assert (K : forall e st z, amounts (narrow_amount n) e -> (forall k, 0 <= st k < 2 ^ n) -> kept n st e = Ok z -> 0 <= z < 2 ^ n).
  { intros e0 st z A E Z. rewrite <- R. apply (kept_expression n (fun k => vec_of n false (st k)) st e0 Hn); [|rewrite R; auto|exact Z]. eapply amounts_weaken; [|exact A]. intros k []. assumption. }
  induction e as [k|e IH|e IH|e IHe f IHf|e IHe f IHf|e IHe f IHf|e IHe f IHf|e IHe f IHf|e IHe f IHf|e IHe f IHf|e IHe f IHf|e IH k|e IH k]; cbn [amounts kept value_of]; intros A st E.
  - right. reflexivity.
  - apply below_bind; [now apply IH|]. intros x X. right. now rewrite R.
  - apply below_bind; [now apply IH|]. intros x X. right. now rewrite R, LE.
  - destruct A as [A A']. apply below_bind; [now apply IHe|]. intros x X. apply below_bind; [now apply IHf|]. intros y Y. right. now rewrite LE.
  - destruct A as [A A']. apply below_bind; [now apply IHe|]. intros x X. apply below_bind; [now apply IHf|]. intros y Y. right. reflexivity.
  - destruct A as [A A']. apply below_bind; [now apply IHe|]. intros x X. apply below_bind; [now apply IHf|]. intros y Y. right. reflexivity.
  - destruct A as [A A']. apply below_bind; [now apply IHe|]. intros x X. apply below_bind; [now apply IHf|]. intros y Y. right. now rewrite R.
  - destruct A as [A A']. apply below_bind; [now apply IHe|]. intros x X. apply below_bind; [now apply IHf|]. intros y Y. right. now rewrite R.
  - destruct A as [A A']. apply below_bind; [now apply IHe|]. intros x X. apply below_bind; [now apply IHf|]. intros y Y. unfold kept_product. rewrite LE, R. destruct (_ && _); [left|right]; reflexivity.
  - destruct A as [A A']. apply below_bind; [now apply IHe|]. intros x X. apply below_bind; [now apply IHf|]. intros y Y. unfold kept_division. rewrite LE. destruct (y =? 0); right; reflexivity.
  - destruct A as [A A']. apply below_bind; [now apply IHe|]. intros x X. apply below_bind; [now apply IHf|]. intros y Y. unfold kept_division. rewrite LE. destruct (y =? 0); right; reflexivity.
  - destruct A as [A A']. destruct A' as (_ & Wk & Sk & Vk). apply below_bind; [now apply IH|]. intros x X. unfold kept_left, small. rewrite LE, R. replace (bw k <=? 64) with true by lia. cbn [negb]. rewrite Z.mod_small by exact Sk. rewrite Vk. destruct (_ <? _); [right|left]; reflexivity.
  - destruct A as [A A']. destruct A' as (_ & Wk & Sk & Vk). apply below_bind; [now apply IH|]. intros x X. pose proof (K e st x A E X) as Rx. unfold kept_right, small. rewrite LE. replace (bw k <=? 64) with true by lia. cbn [negb]. rewrite Vk.
    destruct ((0 <=? stored k) && (stored k <? n)) eqn:Q; [right|left; reflexivity]. apply andb_true_iff in Q. destruct Q. f_equal. apply Z.mod_small. split; [apply Z.div_pos; [lia|apply Z.pow_pos_nonneg; lia]|].
    apply Z.div_lt_upper_bound; [apply Z.pow_pos_nonneg; lia|]. rewrite <- Z.pow_add_r by lia. replace (stored k + (n - stored k)) with n by lia. lia.
Qed.
Lemma kept_test_below b : amounts_cond (narrow_amount n) b -> forall st, (forall k, 0 <= st k < 2 ^ n) -> below (kept_test n st b) (test_of n st b).
Proof.
  intros A st E. destruct b as [e f|e f|e f]; destruct A as [Ae Af]; cbn [kept_test test_of].
  all: apply below_bind; [now apply kept_below|]; intros x _; apply below_bind; [now apply kept_below|]; intros y _; right; reflexivity.
Qed.
Lemma kept_exec_below fuel : forall c, amounts_cmd (narrow_amount n) c -> forall st, (forall k, 0 <= st k < 2 ^ n) -> below (kept_exec n fuel st c) (exec_of n fuel st c).
Proof.
  destruct (full_room n F L) as [Hn R].
  assert (K : forall fuel c st st', amounts_cmd (narrow_amount n) c -> (forall k, 0 <= st k < 2 ^ n) -> kept_exec n fuel st c = Ok st' -> forall k, 0 <= st' k < 2 ^ n).
  { intros fl c st st' A E Z k. assert (A' : amounts_cmd vec c) by (eapply amounts_cmd_weaken; [|exact A]; intros ? []; assumption).
    pose proof (kept_runs n Hn fl c A' (fun k => vec_of n false (st k)) st) as H. rewrite Z in H. rewrite R in H. specialize (H (fun k => conj (E k) eq_refl)).
    destruct (exec fl _ c); try contradiction. apply H. }
  induction fuel as [|fuel IH]; intros c A st E; [right; reflexivity|]. destruct c as [|k e|c d|b c d|b c]; cbn [kept_exec exec_of amounts_cmd] in *.
  - right. reflexivity.
  - apply below_bind; [now apply kept_below|]. intros x _. right. reflexivity.
  - destruct A as [Ac Ad]. apply below_bind; [now apply IH|]. intros st' Z. apply IH; [assumption|]. exact (K fuel c st st' Ac E Z).
  - destruct A as (Ab & Ac & Ad). apply below_bind; [now apply kept_test_below|]. intros t _. destruct t; apply IH; assumption.
  - destruct A as (Ab & Ac). apply below_bind; [now apply kept_test_below|]. intros t _. destruct t; [|right; reflexivity]. apply below_bind; [now apply IH|]. intros st' Z. apply IH; [cbn [amounts_cmd]; auto|]. exact (K fuel c st st' Ac E Z).
Qed.
End Full.

Lemma good_state n env : full_width n -> n <= 64 -> good n env -> forall k, 0 <= num (env k) < 2 ^ room n /\ env k = vec_of n false (num (env k)).
Proof.
  intros F L G k. destruct (full_room n F L) as [Hn R]. destruct (G k) as [T D]. destruct (kept_state n (env k) Hn T) as [B E]. assert (Q : num (env k) = stored (env k)).
  { rewrite E at 1. rewrite vec_of_num by lia. apply Z.mod_small. rewrite R in B. exact B. } rewrite Q. split; assumption.
Qed.
Lemma good_kept n st : full_width n -> n <= 64 -> (forall k, 0 <= st k < 2 ^ n) -> good n (fun k => vec_of n false (st k)) /\ forall k, num (vec_of n false (st k)) = st k.
Proof.
  intros F L E. destruct (full_room n F L) as [Hn R]. split.
  - intros k. split; [apply vec_of_typed; lia|]. unfold tidy. rewrite vec_of_small by lia. unfold vector. cbn [bval bsgn andb]. replace (bw _) with n by (symmetry; apply (width_n n); lia).
    unfold store. replace (n =? 1) with false by lia. unfold wrap. destruct (room_range n ltac:(lia)) as (_ & _ & Q & _). destruct (Q L) as [Q' _]. rewrite <- Q', R. apply Z.mod_pos_bound. apply Z.pow_pos_nonneg; lia.
  - intros k. rewrite vec_of_num by lia. apply Z.mod_small, E.
Qed.
Lemma value_of_kind n st e : match value_of n st e with Exn | IllFormed | Fuel => False | _ => True end.
Proof.
  induction e as [k|e IH|e IH|e IHe f IHf|e IHe f IHf|e IHe f IHf|e IHe f IHf|e IHe f IHf|e IHe f IHf|e IHe f IHf|e IHe f IHf|e IH k|e IH k]; cbn [value_of]; try exact I;
    (destruct (value_of n st e); [|exact I|contradiction..]); cbn [bind]; try exact I; (destruct (value_of n st f); [|exact I|contradiction..]); cbn [bind]; try exact I; destruct (_ =? 0); exact I.
Qed.
Lemma test_of_kind n st b : match test_of n st b with Exn | IllFormed | Fuel => False | _ => True end.
Proof.
  destruct b as [e f|e f|e f]; cbn [test_of]; pose proof (value_of_kind n st e) as X; pose proof (value_of_kind n st f) as Y; destruct (value_of n st e); try contradiction; destruct (value_of n st f); try contradiction; exact I.
Qed.
Lemma exec_of_kind n fuel : forall c st, match exec_of n fuel st c with Exn | IllFormed => False | _ => True end.
Proof.
  induction fuel as [|fuel IH]; intros c st; [exact I|]. destruct c as [|k e|c d|b c d|b c]; cbn [exec_of].
  - exact I.
  - pose proof (value_of_kind n st e) as X. destruct (value_of n st e); try contradiction; exact I.
  - specialize (IH c st) as X. destruct (exec_of n fuel st c); try contradiction; try exact I. apply IH.
  - pose proof (test_of_kind n st b) as X. destruct (test_of n st b); try contradiction; try exact I. apply IH.
  - pose proof (test_of_kind n st b) as X. destruct (test_of n st b) as [t| | | |]; try contradiction; try exact I. cbn [bind]. destruct t; [|exact I]. specialize (IH c st) as Y. destruct (exec_of n fuel st c); try contradiction; try exact I. apply IH.
Qed.
Lemma right_or_undefined n fuel env st c : full_width n -> n <= 64 -> good n env -> (forall k, num (env k) = st k) -> amounts_cmd (narrow_amount n) c ->
  (exec fuel env c = UB <-> kept_exec n fuel st c = UB) /\ (exec fuel env c = UB \/ same_outcome n (exec fuel env c) (exec_of n fuel st c)).
Proof.
  intros F L G E A. destruct (full_room n F L) as [Hn R]. pose proof (good_state n env F L G) as GS.
  assert (ES : forall k, 0 <= st k < 2 ^ room n /\ env k = vec_of n false (st k)) by (intros k; rewrite <- E; apply GS).
  assert (A' : amounts_cmd vec c) by (eapply amounts_cmd_weaken; [|exact A]; intros ? []; assumption).
  pose proof (kept_runs n Hn fuel c A' env st ES) as H. split.
  - destruct (exec fuel env c), (kept_exec n fuel st c); try contradiction; split; congruence.
  - destruct (kept_exec_below n F L fuel c A st) as [B|B]; [intros k; rewrite <- R; apply ES| |].
    + left. rewrite B in H. destruct (exec fuel env c); try contradiction. reflexivity.
    + right. rewrite <- B. destruct (exec fuel env c) as [env'| | | |], (kept_exec n fuel st c) as [st'| | | |]; try contradiction; try exact I; cbn [same_outcome].
      * rewrite R in H. destruct (good_kept n st' F L (fun k => proj1 (H k))) as [G1 G2]. split; [intros k; rewrite (proj2 (H k)); apply G1|]. intros k. rewrite (proj2 (H k)). apply G2.
      * pose proof (exec_of_kind n fuel c st) as X. rewrite <- B in X. exact X.
      * pose proof (exec_of_kind n fuel c st) as X. rewrite <- B in X. exact X.
Qed.
