(** Programs over unsigned 4-state vectors of one width run in lockstep with programs over the stored numbers. *)
From Coq Require Import ZArith List Bool Lia.
From Verif Require Import Cpp ZBits BigNum Bit Logic Spec SpecExact SpecExact4 SpecMachine SpecWide Client Client4 Program Program4 SpecFour SpecProg SpecProg4 BitOps BitProofs BitMain WideProofs WideProofs2 WideProofs3 FourProofs FourProofs2 FourProofs3 Iff3 Iff25 ProgExact.
Import ListNotations.
Open Scope Z_scope.
Local Ltac Zify.zify_post_hook ::= idtac.

Section Width.
Variable n : Z.
Hypothesis Hn : 2 <= n < 2 ^ 31.
Let V z := vec_of n false z.
Let ok z := 0 <= z < 2 ^ room n.
Let H c := holding n c.

Lemma H_lvec c : lvec (H c).
Proof. unfold lvec, H, holding. cbn [l_val l_xz]. split; [apply vec_of_vec; lia|]. split; [apply vec_of_vec; lia|]. repeat split. Qed.
Lemma H_lw c : lw (H c) = n.
Proof. apply (V_bw n Hn (fst c)). Qed.
Lemma H_doubt_at c m : cell_ok n c -> m = n -> seems_nonzero (l_xz (H c)) m = noticed n (snd c) /\ seems_nonzero (l_val (H c)) m = noticed n (fst c).
Proof.
  intros [A B] ->. unfold seems_nonzero, noticed, H, holding. cbn [l_val l_xz]. destruct (n <=? 64).
  - rewrite !(V_stored n Hn) by assumption. split; reflexivity.
  - rewrite !(V_widened n Hn) by auto. split; reflexivity.
Qed.
Lemma H_doubtful c : cell_ok n c -> doubtful (H c) = noticed n (snd c) /\ any_true (l_val (H c)) = noticed n (fst c).
Proof.
  intros [A B]. unfold doubtful, any_true, noticed, H, holding. cbn [l_val l_xz]. rewrite !(V_small n Hn), !(V_bw n Hn), !(V_stored n Hn) by assumption. split; reflexivity.
Qed.
Lemma H_widths a b : widths_ok (H a) (H b) = true.
Proof. unfold widths_ok. rewrite !H_lw, Z.eqb_refl. reflexivity. Qed.
Lemma H_certain z : certain (V z) = H (z, 0).
Proof. reflexivity. Qed.
Lemma H_unknown : all_unknown n false = H (only_x n).
Proof. reflexivity. Qed.
Lemma k4_arith division f g a b : cell_ok n a -> cell_ok n b -> f (V (fst a)) (V (fst b)) = omap V g -> (forall z, g = Ok z -> ok z) -> g <> IllFormed ->
  four_arith division f (H a) (H b) = omap H (strict n (noticed n (snd a) || noticed n (snd b) || (division && negb (noticed n (fst b)))) g).
Proof.
  intros A B E R I. unfold four_arith. rewrite H_widths. cbn [negb]. rewrite !H_lw, Z.max_id. unfold doubt_at. destruct (H_doubt_at a n A eq_refl) as [-> _]. destruct (H_doubt_at b n B eq_refl) as [-> ->].
  change (l_val (H a)) with (V (fst a)). change (l_val (H b)) with (V (fst b)). rewrite E. change (lsgn (H a) && lsgn (H b)) with false. rewrite H_unknown. unfold unless, strict.
  destruct (noticed n (snd a) || noticed n (snd b) || _); destruct g; try reflexivity; now elim I.
Qed.

Definition fine4 (r : outcome logic) (s : outcome cell) : Prop := r = omap H s /\ forall c, s = Ok c -> cell_ok n c.
Lemma fine4_bind r s (f : logic -> outcome logic) (g : cell -> outcome cell) : fine4 r s -> (forall c, cell_ok n c -> fine4 (f (H c)) (g c)) -> fine4 (bind r f) (bind s g).
Proof. intros [-> O] P. destruct s as [z| | | |]; [|split; [reflexivity|discriminate]..]. cbn [omap bind]. apply P. now apply O. Qed.
Lemma fine4_ok c : cell_ok n c -> fine4 (Ok (H c)) (Ok c). Proof. intros O. split; [reflexivity|]. intros z' [= <-]. exact O. Qed.
Lemma only_x_ok : cell_ok n (only_x n).
Proof. unfold cell_ok, only_x. cbn [fst snd]. pose proof (room_pos n ltac:(lia)). split; [lia|]. apply (pow_in n Hn). pose proof (pow2_pos n ltac:(lia)). lia. Qed.
Lemma strict_ok d g : (forall z, g = Ok z -> ok z) -> forall c, strict n d g = Ok c -> cell_ok n c.
Proof.
  intros R c. unfold strict. destruct d; [intros [= <-]; apply only_x_ok|]. destruct g as [z| | | |]; try discriminate. intros [= <-]. split; cbn [fst snd]; [apply R; reflexivity|].
  pose proof (room_pos n ltac:(lia)). lia.
Qed.
Lemma fine4_arith division f g a b : cell_ok n a -> cell_ok n b -> f (V (fst a)) (V (fst b)) = omap V g -> (forall z, g = Ok z -> ok z) -> g <> IllFormed ->
  fine4 (four_arith division f (H a) (H b)) (strict n (noticed n (snd a) || noticed n (snd b) || (division && negb (noticed n (fst b)))) g).
Proof. intros A B E R I. split; [now apply k4_arith|]. now apply strict_ok. Qed.

Lemma pow_cell v m : 0 <= v < 2 ^ n -> ok m -> cell_ok n (v, m).
Proof. intros A B. split; cbn [fst snd]; [apply (pow_in n Hn); exact A|exact B]. Qed.
Lemma gather_pow g : 0 <= gather (Z.to_nat n) g < 2 ^ n.
Proof. pose proof (gather_range (Z.to_nat n) g) as R. rewrite Z2Nat.id in R by lia. exact R. Qed.
Lemma gather_is g z : 0 <= z < 2 ^ n -> (forall p, 0 <= p < n -> g p = Z.testbit z p) -> gather (Z.to_nat n) g = z.
Proof.
  intros R E. rewrite (gather_ext (Z.to_nat n) g (Z.testbit z)) by (intros p Hp; apply E; lia). apply gather_self. rewrite Z2Nat.id by lia. exact R.
Qed.
Lemma H_bit v p : ok v -> 0 <= p < n -> bit_at (V v) p = Z.testbit v p.
Proof. intros O Hp. unfold bit_at. unfold V. rewrite (V_num n Hn) by exact O. rewrite testbit_mod_pow2 by lia. replace (p <? n) with true by lia. reflexivity. Qed.
Lemma H_sym c p : cell_ok n c -> 0 <= p < n -> sym_at (H c) p = symbol c p.
Proof. intros [A B] Hp. unfold sym_at, symbol. change (l_val (H c)) with (V (fst c)). change (l_xz (H c)) with (V (snd c)). rewrite !H_bit by assumption. reflexivity. Qed.
Lemma H_sym_wide c p m : cell_ok n c -> m = n -> sym_wide (H c) m p = symbol c p.
Proof. intros [A B] ->. unfold sym_wide, symbol. change (l_val (H c)) with (V (fst c)). change (l_xz (H c)) with (V (snd c)). unfold V. rewrite !(V_widened n Hn) by auto. reflexivity. Qed.
Lemma H_pair v m : H (v, m) = vec4 n false v m. Proof. reflexivity. Qed.
Lemma k4_table t a b : cell_ok n a -> cell_ok n b -> four_table t (H a) (H b) = Ok (H (of_symbols n (fun p => t (symbol a p) (symbol b p)))).
Proof.
  intros A B. unfold four_table. rewrite !H_lw, Z.eqb_refl, Z.max_id. change (lsgn (H a) && lsgn (H b)) with false. change (llsb (H a)) with 0. change (llsb (H b)) with 0. change (lmsb (H a)) with (n - 1). change (lmsb (H b)) with (n - 1).
  replace (0 <=? n - 1) with true by lia. cbn [andb negb orb]. f_equal. unfold from_syms, of_symbols. rewrite H_pair.
  f_equal; apply gather_ext; intros p Hp; rewrite !H_sym_wide by (assumption || reflexivity); reflexivity.
Qed.
Lemma k4_not a : cell_ok n a -> four_not (H a) = H (Z.ldiff (2 ^ n - 1) (Z.lor (fst a) (snd a)), snd a) /\ 0 <= Z.ldiff (2 ^ n - 1) (Z.lor (fst a) (snd a)) < 2 ^ n.
Proof.
  intros A. assert (R : 0 <= Z.ldiff (2 ^ n - 1) (Z.lor (fst a) (snd a)) < 2 ^ n).
  { replace (2 ^ n - 1) with (Z.ones n) by (rewrite Z.ones_equiv; lia). rewrite Z.ldiff_land, Z.land_comm, Z.land_ones by lia. apply Z.mod_pos_bound. apply Z.pow_pos_nonneg; lia. }
  split; [|exact R]. unfold four_not. rewrite H_lw. change (l_xz (H a)) with (V (snd a)). unfold V. rewrite (V_stored n Hn) by apply A. rewrite H_pair. f_equal. apply gather_is; [exact R|].
  intros p Hp. rewrite H_sym by assumption. unfold symbol. replace (2 ^ n - 1) with (Z.ones n) by (rewrite Z.ones_equiv; lia). rewrite Z.ldiff_spec, Z.lor_spec, Z.ones_spec_low by lia.
  destruct (Z.testbit (fst a) p), (Z.testbit (snd a) p); reflexivity.
Qed.
Lemma k4_xor a b : cell_ok n a -> cell_ok n b ->
  four_xor (H a) (H b) = Ok (H (Z.ldiff (Z.lxor (fst a) (fst b) mod 2 ^ n) (Z.lor (snd a) (snd b)), Z.lor (snd a) (snd b))) /\ 0 <= Z.ldiff (Z.lxor (fst a) (fst b) mod 2 ^ n) (Z.lor (snd a) (snd b)) < 2 ^ n.
Proof.
  intros A B. assert (R : 0 <= Z.ldiff (Z.lxor (fst a) (fst b) mod 2 ^ n) (Z.lor (snd a) (snd b)) < 2 ^ n).
  { rewrite <- Z.land_ones by lia. rewrite Z.ldiff_land, <- Z.land_assoc, (Z.land_comm (Z.ones n)), Z.land_assoc, Z.land_ones by lia. apply Z.mod_pos_bound. apply Z.pow_pos_nonneg; lia. }
  split; [|exact R]. unfold four_xor. rewrite !H_lw, Z.eqb_refl. cbn [negb]. change (lsgn (H a) && lsgn (H b)) with false. change (llsb (H b)) with 0. change (lmsb (H b)) with (n - 1). replace (0 <=? n - 1) with true by lia. cbn [negb orb].
  f_equal. change (l_xz (H a)) with (V (snd a)). change (l_xz (H b)) with (V (snd b)). unfold V. rewrite !(V_stored n Hn) by (apply A || apply B). rewrite H_pair. f_equal. apply gather_is; [exact R|].
  intros p Hp. rewrite !H_sym by assumption. unfold symbol. rewrite Z.ldiff_spec, testbit_mod_pow2, Z.lxor_spec, Z.lor_spec by lia. replace (p <? n) with true by lia.
  destruct (Z.testbit (fst a) p), (Z.testbit (snd a) p), (Z.testbit (fst b) p), (Z.testbit (snd b) p); reflexivity.
Qed.

Lemma left_ok x k z : ok x -> kept_left n x k = Ok z -> ok z.
Proof.
  intros X. unfold kept_left. destruct (n <=? 64); [destruct (negb (small k)); [discriminate|]; destruct (_ <? _); [|discriminate]; intros [= <-]; apply (ok_mod n Hn)|]. intros [= <-]. apply (pow_in n Hn), Z.mod_pos_bound, Z.pow_pos_nonneg; lia.
Qed.
Lemma right_ok x k z : vec k -> ok x -> kept_right n x k = Ok z -> ok z.
Proof.
  intros K X E. destruct (kept_eval n Hn (Shr (Var 0) k) ltac:(cbn; auto) (fun _ => vec_of n false x) (fun _ => x)) as [_ Q]; [intros j; split; [exact X|reflexivity]|]. exact (Q z E).
Qed.
Lemma k4_shift f g a k : (forall x, ok x -> f (V x) (l_val k) = omap V (g x (l_val k))) -> (forall x z, ok x -> g x (l_val k) = Ok z -> ok z) -> cell_ok n a ->
  fine4 (four_shift f (H a) k) (shifted n g a k).
Proof.
  intros F G A. unfold four_shift, shifted. destruct (H_doubtful a A) as [-> _]. rewrite H_lw. change (lsgn (H a) && lsgn k) with false. rewrite H_unknown. change (l_val (H a)) with (V (fst a)). change (l_xz (H a)) with (V (snd a)).
  rewrite !F by apply A. set (d := noticed n (snd a) || doubtful k). pose proof (G (fst a)) as G1. pose proof (G (snd a)) as G2.
  destruct (g (fst a) (l_val k)) as [v| | | |], (g (snd a) (l_val k)) as [m| | | |]; cbn [omap bind unless]; destruct d; (split; [reflexivity|]); intros c [= <-]; try apply only_x_ok; split; cbn [fst snd]; [apply (G1 v)|apply (G2 m)]; (apply A || reflexivity).
Qed.
Lemma k4_minus a : cell_ok n a -> fine4 (logic_neg (H a)) (if n <=? 64 then strict n (noticed n (snd a)) (Ok ((- fst a) mod 2 ^ room n)) else IllFormed).
Proof.
  intros A. rewrite neg_four by apply H_lvec. unfold four_minus. destruct (H_doubtful a A) as [-> _]. change (l_val (H a)) with (V (fst a)). unfold V. rewrite <- neg_any by apply (V_vec n Hn). rewrite (k_neg n Hn) by apply A.
  rewrite H_lw. change (rewritten4 (H a) 0 (2 ^ n - 1)) with (H (only_x n)). destruct (n <=? 64); [|split; [reflexivity|discriminate]]. split.
  - unfold strict. destruct (noticed n (snd a)); reflexivity.
  - apply strict_ok. intros z [= <-]. apply (ok_mod n Hn).
Qed.
Lemma product_ok x y z : kept_product n x y = Ok z -> ok z.
Proof. unfold kept_product. pose proof (room_pos n ltac:(lia)). repeat match goal with |- context [if ?c then _ else _] => destruct c end; intros [= <-]; try apply (ok_mod n Hn). unfold ok. lia. Qed.
Lemma product_formed x y : kept_product n x y <> IllFormed.
Proof. unfold kept_product. repeat match goal with |- context [if ?c then _ else _] => destruct c end; discriminate. Qed.
Lemma divided_formed x y : divided n x y <> IllFormed.
Proof. unfold divided. repeat match goal with |- context [if ?c then _ else _] => destruct c end; discriminate. Qed.
Lemma division_ok x y q r : ok x -> ok y -> kept_division n x y = Ok (q, r) -> ok q /\ ok r.
Proof.
  intros X Y. unfold kept_division. destruct (n <=? 64).
  - destruct (Z.eqb_spec y 0) as [Q|Q]; intros [= <- <-]. unfold ok in *. pose proof (Z.mod_pos_bound x y ltac:(lia)). split; [|lia]. split; [apply Z.div_pos; lia|]. apply Z.le_lt_trans with x; [|lia]. apply Z.div_le_upper_bound; [lia|]. nia.
  - destruct (divided n x y) as [[q' r']| | | |]; intros [= <- <-]. split; apply (ok_mod n Hn).
Qed.
Lemma division_formed x y : kept_division n x y <> IllFormed.
Proof. unfold kept_division. destruct (n <=? 64); [destruct (y =? 0); discriminate|]. pose proof (divided_formed x y). destruct (divided n x y); try discriminate. congruence. Qed.

Lemma kept4_eval e : amounts4 lvec e -> forall env st, (forall k, cell_ok n (st k) /\ env k = H (st k)) -> fine4 (eval4 env e) (kept4 n st e).
Proof.
  induction e as [k|e IH|e IH|e IHe f IHf|e IHe f IHf|e IHe f IHf|e IHe f IHf|e IHe f IHf|e IHe f IHf|e IHe f IHf|e IHe f IHf|e IH k|e IH k]; cbn [amounts4 eval4 kept4]; intros A env st E.
  - destruct (E k) as [O ->]. now apply fine4_ok.
  - apply fine4_bind; [now apply IH|]. intros a O. rewrite not_four by apply H_lvec. destruct (k4_not a O) as [-> R]. apply fine4_ok. apply pow_cell; [exact R|apply O].
  - apply fine4_bind; [now apply IH|]. intros a O. now apply k4_minus.
  - destruct A. apply fine4_bind; [now apply IHe|]. intros a X. apply fine4_bind; [now apply IHf|]. intros b Y. rewrite and_four by apply H_lvec. rewrite k4_table by assumption. apply fine4_ok. apply pow_cell; [apply gather_pow|apply (pow_in n Hn), gather_pow].
  - destruct A. apply fine4_bind; [now apply IHe|]. intros a X. apply fine4_bind; [now apply IHf|]. intros b Y. rewrite or_four by apply H_lvec. rewrite k4_table by assumption. apply fine4_ok. apply pow_cell; [apply gather_pow|apply (pow_in n Hn), gather_pow].
  - destruct A. apply fine4_bind; [now apply IHe|]. intros a X. apply fine4_bind; [now apply IHf|]. intros b Y. rewrite xor_four by apply H_lvec. destruct (k4_xor a b X Y) as [-> R]. apply fine4_ok. apply pow_cell; [exact R|apply (ok_lor n Hn); [apply X|apply Y]].
  - destruct A. apply fine4_bind; [now apply IHe|]. intros a X. apply fine4_bind; [now apply IHf|]. intros b Y. rewrite add_four by apply H_lvec.
    pose proof (fine4_arith false any_sum (Ok ((fst a + fst b) mod 2 ^ room n)) a b X Y) as Q. cbn [andb] in Q. rewrite orb_false_r in Q. apply Q; [|intros z [= <-]; apply (ok_mod n Hn)|discriminate].
    unfold V. rewrite <- add_any by apply (V_vec n Hn). apply (k_add n Hn); [apply X|apply Y].
  - destruct A. apply fine4_bind; [now apply IHe|]. intros a X. apply fine4_bind; [now apply IHf|]. intros b Y. rewrite sub_four by apply H_lvec.
    pose proof (fine4_arith false any_difference (Ok ((fst a - fst b) mod 2 ^ room n)) a b X Y) as Q. cbn [andb] in Q. rewrite orb_false_r in Q. apply Q; [|intros z [= <-]; apply (ok_mod n Hn)|discriminate].
    unfold V. rewrite <- sub_any by apply (V_vec n Hn). apply (k_sub n Hn); [apply X|apply Y].
  - destruct A. apply fine4_bind; [now apply IHe|]. intros a X. apply fine4_bind; [now apply IHf|]. intros b Y. rewrite mul_four by apply H_lvec.
    pose proof (fine4_arith false any_product (kept_product n (fst a) (fst b)) a b X Y) as Q. cbn [andb] in Q. rewrite orb_false_r in Q. apply Q; [|intros z; apply product_ok|apply product_formed].
    unfold V. rewrite <- mul_any by apply (V_vec n Hn). apply (k_mul n Hn); [apply X|apply Y].
  - destruct A. apply fine4_bind; [now apply IHe|]. intros a X. apply fine4_bind; [now apply IHf|]. intros b Y. rewrite div_four by apply H_lvec.
    pose proof (fine4_arith true any_quotient (omap fst (kept_division n (fst a) (fst b))) a b X Y) as Q. cbn [andb] in Q. apply Q.
    + unfold V. rewrite <- div_any by apply (V_vec n Hn). apply (k_div n Hn); [apply X|apply Y].
    + intros z. pose proof (fun q r => division_ok (fst a) (fst b) q r (proj1 X) (proj1 Y)) as D. destruct (kept_division n (fst a) (fst b)) as [[q r]| | | |]; try discriminate. intros [= <-]. now apply (D q r).
    + pose proof (division_formed (fst a) (fst b)). destruct (kept_division n (fst a) (fst b)); try discriminate. congruence.
  - destruct A. apply fine4_bind; [now apply IHe|]. intros a X. apply fine4_bind; [now apply IHf|]. intros b Y. rewrite rem_four by apply H_lvec.
    pose proof (fine4_arith true any_remainder (omap snd (kept_division n (fst a) (fst b))) a b X Y) as Q. cbn [andb] in Q. apply Q.
    + unfold V. rewrite <- rem_any by apply (V_vec n Hn). apply (k_rem n Hn); [apply X|apply Y].
    + intros z. pose proof (fun q r => division_ok (fst a) (fst b) q r (proj1 X) (proj1 Y)) as D. destruct (kept_division n (fst a) (fst b)) as [[q r]| | | |]; try discriminate. intros [= <-]. now apply (D q r).
    + pose proof (division_formed (fst a) (fst b)). destruct (kept_division n (fst a) (fst b)); try discriminate. congruence.
  - destruct A as [A K]. apply fine4_bind; [now apply IH|]. intros a X. rewrite shl_four by (apply H_lvec || assumption). apply k4_shift; [| |exact X].
    + intros x O. unfold V. rewrite <- shl_any by (apply (V_vec n Hn) || apply K). apply (k_shl n Hn); [exact O|apply K].
    + intros x z O. now apply left_ok.
  - destruct A as [A K]. apply fine4_bind; [now apply IH|]. intros a X. rewrite shr_four by (apply H_lvec || assumption). apply k4_shift; [| |exact X].
    + intros x O. unfold V. rewrite <- shr_any by (apply (V_vec n Hn) || apply K). apply (k_shr n Hn); [exact O|apply K].
    + intros x z O. apply right_ok; [apply K|exact O].
Qed.
Lemma k4_compare f r a b : cell_ok n a -> cell_ok n b -> f (V (fst a)) (V (fst b)) = Ok r ->
  (let! c := four_compare f (H a) (H b) in Ok (logic_bool c)) = Ok (negb (noticed n (snd a) || noticed n (snd b)) && r).
Proof.
  intros A B E. unfold four_compare. destruct (H_doubtful a A) as [-> _]. destruct (H_doubtful b B) as [-> _]. change (l_val (H a)) with (V (fst a)). change (l_val (H b)) with (V (fst b)). rewrite E. cbn [omap bind unless].
  destruct (_ || _); [reflexivity|]. cbn [bind negb andb]. destruct r; reflexivity.
Qed.
Lemma kept4_tests b : amounts4_cond lvec b -> forall env st, (forall k, cell_ok n (st k) /\ env k = H (st k)) -> test4 env b = kept4_test n st b.
Proof.
  intros A env st E. destruct b as [e f|e f|e f|e f|e]; cbn [amounts4_cond] in A; cbn [test4 kept4_test].
  1-4: destruct A as [Ae Af]; destruct (kept4_eval e Ae env st E) as [-> Oe]; destruct (kept4 n st e) as [a| | | |]; try reflexivity; cbn [omap bind];
       destruct (kept4_eval f Af env st E) as [-> Of]; destruct (kept4 n st f) as [b| | | |]; try reflexivity; cbn [omap bind]; specialize (Oe a eq_refl); specialize (Of b eq_refl).
  - rewrite eq_four by apply H_lvec. apply k4_compare; [assumption..|]. unfold V. rewrite <- eq_any by apply (V_vec n Hn). apply (k_eq n Hn); [apply Oe|apply Of].
  - rewrite lt_four by apply H_lvec. apply k4_compare; [assumption..|]. unfold V. rewrite <- lt_any by apply (V_vec n Hn). apply (k_lt n Hn); [apply Oe|apply Of].
  - rewrite ge_four by apply H_lvec. apply k4_compare; [assumption..|]. unfold V. rewrite <- ge_any by apply (V_vec n Hn). apply (k_ge n Hn); [apply Oe|apply Of].
  - rewrite match_four by apply H_lvec. unfold four_match. change (l_val (H a)) with (V (fst a)). change (l_val (H b)) with (V (fst b)). change (l_xz (H a)) with (V (snd a)). change (l_xz (H b)) with (V (snd b)). unfold V.
    rewrite <- !eq_any by apply (V_vec n Hn). rewrite !(k_eq n Hn) by (apply Oe || apply Of). reflexivity.
  - destruct (kept4_eval e A env st E) as [-> Oe]; destruct (kept4 n st e) as [a| | | |]; try reflexivity; cbn [omap bind]. specialize (Oe a eq_refl). rewrite bool_four by apply H_lvec. unfold four_true.
    destruct (H_doubtful a Oe) as [-> ->]. reflexivity.
Qed.
Lemma kept4_runs fuel : forall c, amounts4_cmd lvec c -> forall env st, (forall k, cell_ok n (st k) /\ env k = H (st k)) ->
  match exec4 fuel env c, kept4_exec n fuel st c with
  | Ok env', Ok st' => forall k, cell_ok n (st' k) /\ env' k = H (st' k)
  | UB, UB | Fuel, Fuel | Exn, Exn | IllFormed, IllFormed => True
  | _, _ => False
  end.
Proof.
  induction fuel as [|fuel IH]; intros c A env st E; [exact I|]. destruct c as [|k e|c d|b c d|b c]; cbn [exec4 kept4_exec amounts4_cmd] in *.
  - exact E.
  - destruct (kept4_eval e A env st E) as [-> O]. destruct (kept4 n st e) as [x| | | |]; try exact I. cbn [omap bind]. intros j. unfold upd. destruct (Nat.eqb j k); [split; auto|apply E].
  - destruct A as [Ac Ad]. specialize (IH c Ac env st E) as Q. destruct (exec4 fuel env c), (kept4_exec n fuel st c); try exact I; try contradiction. cbn [bind]. apply IH; assumption.
  - destruct A as (Ab & Ac & Ad). rewrite (kept4_tests b Ab env st E). destruct (kept4_test n st b) as [t| | | |]; try exact I. cbn [bind]. destruct t; apply IH; assumption.
  - destruct A as (Ab & Ac). rewrite (kept4_tests b Ab env st E). destruct (kept4_test n st b) as [t| | | |]; try exact I. cbn [bind]. destruct t; [|exact E].
    specialize (IH c Ac env st E) as Q. destruct (exec4 fuel env c), (kept4_exec n fuel st c); try exact I; try contradiction. cbn [bind]. apply IH; [cbn [amounts4_cmd]; auto|assumption].
Qed.
End Width.

Lemma kept4_expression n env st e : 2 <= n < 2 ^ 31 -> amounts4 lvec e -> (forall k, cell_ok n (st k) /\ env k = holding n (st k)) ->
  eval4 env e = omap (holding n) (kept4 n st e) /\ forall c, kept4 n st e = Ok c -> cell_ok n c.
Proof. intros Hn A E. exact (kept4_eval n Hn e A env st E). Qed.
Lemma kept4_program n fuel env st c : 2 <= n < 2 ^ 31 -> amounts4_cmd lvec c -> (forall k, cell_ok n (st k) /\ env k = holding n (st k)) ->
  same_kept4 n (exec4 fuel env c) (kept4_exec n fuel st c).
Proof.
  intros Hn A E. pose proof (kept4_runs n Hn fuel c A env st E) as Q. unfold same_kept4. destruct (exec4 fuel env c), (kept4_exec n fuel st c); try exact I; try contradiction. intros k. apply Q.
Qed.
(** every state is such a state *)
Lemma kept4_state n l : 2 <= n < 2 ^ 31 -> ltyped l n false -> cell_ok n (stored (l_val l), stored (l_xz l)) /\ l = holding n (stored (l_val l), stored (l_xz l)).
Proof.
  intros Hn [Tv Tm]. destruct (kept_state n _ Hn Tv) as [A B]. destruct (kept_state n _ Hn Tm) as [C D]. split; [split; assumption|]. unfold holding. cbn [fst snd]. rewrite <- B, <- D. now destruct l.
Qed.
