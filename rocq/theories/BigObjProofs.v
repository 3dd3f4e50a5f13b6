(** Proofs about [big_num] objects (BigObj.v) used by PropsBig.v. *)
From Coq Require Import ZArith List Bool Lia Zify ZifyBool.
From Verif Require Import Cpp BigNum Util Spec ZBits Words BigNumProofs BigArith BitCmp BigObj SpecBig.
Import ListNotations.
Open Scope Z_scope.
Ltac Zify.zify_post_hook ::= Z.div_mod_to_equations.

Lemma nwords_up n : nwords n = (n + 63) / 64.
Proof. unfold nwords. destruct (Z.eqb_spec (n mod 64) 0); lia. Qed.

Lemma is_num_wfn x n s : is_num x n s <-> 1 <= n < 2 ^ 32 /\ n_size x = n /\ n_sgn x = s /\ wfn n (n_ws x).
Proof. unfold is_num, wfn, wf, wlen. rewrite nwords_up. intuition. Qed.

Definition num_ok (x : bnum) (n : Z) (s : bool) : bool :=
  (1 <=? n) && (n <? 2 ^ 32) && (n_size x =? n) && Bool.eqb (n_sgn x) s && (Z.of_nat (length (n_ws x)) =? (n + 63) / 64) &&
  forallb (fun w => (0 <=? w) && (w <? 2 ^ 64)) (n_ws x).
Lemma num_ok_is x n s : num_ok x n s = true -> is_num x n s.
Proof.
  unfold num_ok, is_num. rewrite !andb_true_iff, !Z.eqb_eq, Bool.eqb_true_iff, Z.leb_le, Z.ltb_lt, forallb_forall, Forall_forall.
  intros (((((A & B) & C) & D) & E) & F). repeat split; auto; specialize (F _ H); lia.
Qed.
(** concrete instances *)
Ltac cnum := repeat match goal with
  | |- _ /\ _ => split
  | |- is_num _ _ _ => apply num_ok_is; vm_compute; reflexivity
  | |- _ <> _ => vm_compute; discriminate
  | |- inwidth _ => vm_compute; reflexivity
  | |- _ = _ => vm_compute; reflexivity
  | |- _ < _ => vm_compute; reflexivity
  | |- _ <= _ => vm_compute; discriminate
  end.

Lemma is_num_mk n s ws : 1 <= n < 2 ^ 32 -> wfn n ws -> is_num (mkNum n s ws) n s.
Proof. intros. apply is_num_wfn. auto. Qed.

Lemma raw_range x n s : is_num x n s -> 0 <= raw x < 2 ^ (64 * nwords n).
Proof.
  intros H. apply is_num_wfn in H. destruct H as (_ & _ & _ & W & L). unfold raw. rewrite <- L.
  split; [now apply words_num_nonneg|now apply words_num_bound].
Qed.

Lemma mod_cap n z : 1 <= n -> (z mod 2 ^ (64 * nwords n)) mod 2 ^ n = z mod 2 ^ n.
Proof. intros. pose proof (nwords_bounds n ltac:(lia)). apply mod_mod_pow2. lia. Qed.

Lemma magn_range x n s : is_num x n s -> 0 <= magn x < 2 ^ n.
Proof. intros H. apply is_num_wfn in H. destruct H as (? & E & _). unfold magn. rewrite E. apply Z.mod_pos_bound, pow2_pos; lia. Qed.

Lemma pos_out x n s p : is_num x n s -> n <= p -> pos x p = false.
Proof. intros H Hp. pose proof (magn_range _ _ _ H). unfold pos. apply testbit_small with n; lia. Qed.
Lemma pos_in x n s p : is_num x n s -> 0 <= p < n -> pos x p = Z.testbit (raw x) p.
Proof. intros H Hp. apply is_num_wfn in H. destruct H as (? & E & _). unfold pos, magn. rewrite E. apply Z.mod_pow2_bits_low. lia. Qed.
Lemma clean_magn x n s : is_num x n s -> inwidth x -> magn x = raw x.
Proof. intros H C. pose proof (raw_range _ _ _ H). unfold magn. apply Z.mod_small. unfold inwidth in C. lia. Qed.
Lemma pos_ext x y n s m t : is_num x n s -> is_num y m t -> (forall p, 0 <= p -> pos x p = pos y p) -> magn x = magn y.
Proof. intros _ _ E. apply Z.bits_inj'. exact E. Qed.

Ltac unnum H := let N := fresh "N" in let E := fresh "E" in let G := fresh "G" in let W := fresh "W" in
  pose proof H as (N & E & G & W)%is_num_wfn.

(** * Positions *)
Lemma get_pos x n s i : is_num x n s -> 0 <= i -> num_get x i = pos x i.
Proof.
  intros H Hi. unnum H. unfold num_get. rewrite bn_get_spec by (try apply W; lia). rewrite E.
  destruct (Z.ltb_spec i n); cbn [andb].
  - symmetry. apply (pos_in x n s); auto with zarith.
  - symmetry. now apply (pos_out x n s).
Qed.

Lemma set_pos x n s i v : is_num x n s -> 0 <= i ->
  is_num (num_set x i v) n s /\
  (forall p, 0 <= p -> pos (num_set x i v) p = if (p =? i) && (i <? n) then v else pos x p) /\
  (inwidth x -> inwidth (num_set x i v)).
Proof.
  intros H Hi. unnum H. destruct W as [W L]. pose proof (nwords_bounds n ltac:(lia)).
  assert (H' : is_num (num_set x i v) n s).
  { unfold num_set. rewrite E, G. apply is_num_mk; [lia|]. split; [now apply bn_set_wf|]. now rewrite bn_set_len. }
  assert (B : forall p, 0 <= p -> Z.testbit (raw (num_set x i v)) p = if (p =? i) && (i <? n) then v else Z.testbit (raw x) p).
  { intros p Hp. unfold raw, num_set. cbn [n_ws]. rewrite bn_set_spec by (auto; lia). rewrite E.
    destruct (Z.eqb_spec p i), (Z.ltb_spec i n); cbn [andb]; reflexivity. }
  split; [exact H'|]. split.
  - intros p Hp. destruct (Z.lt_ge_cases p n).
    + rewrite (pos_in _ n s), (pos_in x n s) by (auto; lia). apply B. exact Hp.
    + rewrite (pos_out _ n s), (pos_out x n s) by auto. destruct (Z.eqb_spec p i), (Z.ltb_spec i n); cbn [andb]; auto; lia.
  - unfold inwidth. intros C. cbn [num_set n_size]. rewrite E in *. apply bits_small; [lia|apply (raw_range _ _ _ H')|].
    intros p Hp. rewrite B by lia. destruct (Z.eqb_spec p i), (Z.ltb_spec i n); cbn [andb]; try lia;
      (apply testbit_small with n; [split; [apply (raw_range _ _ _ H)|lia]|lia]).
Qed.

Lemma set_c_ok x n s i v : is_num x n s -> 0 <= i < n -> num_set_c x i v = Ok (num_set x i v).
Proof. intros H Hi. unnum H. unfold num_set_c, requires. rewrite E, (proj2 (Z.ltb_lt i n)) by lia. reflexivity. Qed.
Lemma set_c_rejected x n s i v : is_num x n s -> n <= i -> num_set_c x i v = IllFormed.
Proof. intros H Hi. unnum H. unfold num_set_c, requires. rewrite E, (proj2 (Z.ltb_ge i n)) by lia. reflexivity. Qed.

Lemma writes_pos ws : forall x n s, is_num x n s -> Forall (fun w => 0 <= fst w < n) ws ->
  let y := fold_left (fun x w => num_set x (fst w) (snd w)) ws x in
  is_num y n s /\ forall p, 0 <= p -> pos y p = after_writes x ws p.
Proof.
  induction ws as [|[i v] ws IH]; intros x n s H F; cbn [fold_left].
  - split; [exact H|]. reflexivity.
  - inversion F as [|? ? F1 F2]; subst. cbn [fst snd] in *. destruct (set_pos x n s i v H ltac:(lia)) as (H' & B & _).
    destruct (IH _ n s H' F2) as (K & Q). split; [exact K|]. intros p Hp. rewrite Q by exact Hp.
    unfold after_writes. cbn [fold_left fst snd]. rewrite B by exact Hp. rewrite (proj2 (Z.ltb_lt i n)), andb_true_r by lia.
    now rewrite (Z.eqb_sym p i).
Qed.

Lemma slice_c_num x n s a b : is_num x n s -> 0 <= a < n -> 0 <= b < n ->
  exists r, num_slice_c x a b = Ok r /\ is_num r (Z.abs (a - b) + 1) false /\ inwidth r /\
    magn r = (magn x / 2 ^ Z.min a b) mod 2 ^ (Z.abs (a - b) + 1).
Proof.
  intros H Ha Hb. unnum H. destruct (bn_slice_c_spec n (n_ws x) a b) as (r & Er & Wr & Q); [lia|auto..|].
  exists (mkNum (Z.abs (a - b) + 1) false r). split; [unfold num_slice_c; rewrite E, Er; reflexivity|].
  assert (K : is_num (mkNum (Z.abs (a - b) + 1) false r) (Z.abs (a - b) + 1) false) by (apply is_num_mk; [lia|exact Wr]).
  split; [exact K|]. assert (C : inwidth (mkNum (Z.abs (a - b) + 1) false r)).
  { unfold inwidth, raw. cbn [n_ws n_size]. rewrite Q. apply Z.mod_pos_bound, pow2_pos. lia. }
  split; [exact C|]. rewrite (clean_magn _ _ _ K C). unfold raw at 1. cbn [n_ws]. rewrite Q.
  unfold magn. rewrite E. fold (raw x). apply Z.bits_inj'. intros p Hp.
  rewrite !testbit_div_mod by lia. rewrite testbit_mod_pow2 by lia. destruct (Z.ltb_spec p (Z.abs (a - b) + 1)); cbn [andb]; [|reflexivity].
  now rewrite (proj2 (Z.ltb_lt (p + Z.min a b) n)) by lia.
Qed.

Lemma slice_c_bad x n s a b : is_num x n s -> n <= Z.max a b -> num_slice_c x a b = IllFormed.
Proof. intros H Hm. unnum H. unfold num_slice_c, bn_slice_c, requires. rewrite E, (proj2 (Z.ltb_ge (Z.max a b) n)) by lia. reflexivity. Qed.

Lemma slice_r_num x n s ts a b : is_num x n s -> 1 <= ts < 2 ^ 32 -> 0 <= a < u64max -> 0 <= b < u64max ->
  exists r, num_slice_r x ts a b = Ok r /\ is_num r ts false /\ inwidth r /\
    magn r = (magn x / 2 ^ Z.min a b) mod 2 ^ Z.min ts (Z.abs (a - b) + 1).
Proof.
  intros H Ht Ha Hb. unnum H. destruct (bn_slice_r_spec n (n_ws x) ts a b) as (r & Er & Wr & Q); [lia|lia|auto..|].
  exists (mkNum ts false r). split; [unfold num_slice_r; rewrite E, Er; reflexivity|].
  assert (K : is_num (mkNum ts false r) ts false) by (apply is_num_mk; [lia|exact Wr]).
  split; [exact K|]. assert (C : inwidth (mkNum ts false r)).
  { unfold inwidth, raw. cbn [n_ws n_size]. rewrite Q. pose proof (pow2_mono (Z.min ts (Z.abs (a - b) + 1)) ts ltac:(lia)).
    pose proof (Z.mod_pos_bound ((words_num (n_ws x) mod 2 ^ n) / 2 ^ Z.min a b) (2 ^ Z.min ts (Z.abs (a - b) + 1)) ltac:(apply pow2_pos; lia)). lia. }
  split; [exact C|]. rewrite (clean_magn _ _ _ K C). unfold raw at 1. cbn [n_ws]. rewrite Q. unfold magn. now rewrite E.
Qed.

Lemma concat_num x y n s m t : is_num x n s -> is_num y m t -> n + m < 2 ^ 32 ->
  is_num (num_concat x y) (n + m) false /\ magn (num_concat x y) = magn y + 2 ^ m * magn x.
Proof.
  intros H K B. unnum H. unnum K.
  pose proof (nwords_bounds n ltac:(lia)) as Bn. pose proof (nwords_bounds m ltac:(lia)) as Bm. pose proof (nwords_bounds (n + m) ltac:(lia)) as Bnm.
  unfold num_concat. rewrite E, E0. unfold bn_concat.
  destruct (pad_words m (n + m) (n_ws y)) as (W1 & W2); [lia|exact W0|]. destruct W1 as [Wa Wb].
  pose proof (copy_loop (n + m) (fun i => bn_get n (n_ws x) (i - m)) 0 m (n + m) (n_ws y ++ repeat 0 (Z.to_nat (nwords (n + m) - nwords m))) Wa ltac:(lia) ltac:(lia) ltac:(lia)) as C.
  cbn zeta in C. rewrite (fold_left_ext _ (fun r i => bn_set (n + m) r i (bn_get n (n_ws x) (i - m)))) in C by (intros; now rewrite Z.add_0_r).
  destruct C as (C1 & C2 & C3). set (r := fold_left _ _ _) in *.
  assert (J : is_num (mkNum (n + m) false r) (n + m) false) by (apply is_num_mk; [lia|split; [exact C1|lia]]).
  split; [exact J|]. pose proof (magn_range x n s H) as Rx. pose proof (magn_range y m t K) as Ry.
  apply Z.bits_inj'. intros p Hp.
  replace (magn y + 2 ^ m * magn x) with (Z.lor (magn y) (Z.shiftl (magn x) m)).
  2:{ rewrite lor_disjoint_add, Z.shiftl_mul_pow2 by lia || (apply Z.bits_inj'; intros q Hq; rewrite Z.land_spec, Z.bits_0;
        destruct (Z.lt_ge_cases q m); [rewrite (Z.shiftl_spec_low _ _ q) by lia; apply andb_false_r|rewrite (testbit_small (magn y) m q) by lia; reflexivity]). ring. }
  rewrite Z.lor_spec, Z.shiftl_spec by lia. change (Z.testbit (magn (mkNum (n + m) false r)) p) with (pos (mkNum (n + m) false r) p).
  destruct (Z.lt_ge_cases p (n + m)).
  - rewrite (pos_in _ (n + m) false) by (auto; lia). unfold raw. cbn [n_ws]. rewrite C3 by lia. rewrite !Z.add_0_r, Z.sub_0_r.
    destruct (Z.leb_spec m p); cbn [andb].
    + rewrite (proj2 (Z.ltb_lt p (n + m))) by lia. cbn [andb]. rewrite (testbit_small (magn y) m p) by lia. cbn [orb].
      pose proof (get_pos x n s (p - m) H ltac:(lia)) as GP. unfold num_get in GP. rewrite E in GP. exact GP.
    + rewrite (Z.testbit_neg_r (magn x)) by lia. rewrite orb_false_r, W2. symmetry. apply (pos_in y m t); auto; lia.
  - rewrite (pos_out _ (n + m) false) by auto. rewrite (testbit_small (magn y) m), (testbit_small (magn x) n) by lia. reflexivity.
Qed.

(** * Widening *)
Lemma twos_range n z : 1 <= n -> 0 <= z < 2 ^ n -> - 2 ^ (n - 1) <= twos n z < 2 ^ (n - 1).
Proof.
  intros Hn Hz. unfold twos. assert (P : 2 ^ n = 2 * 2 ^ (n - 1)) by (rewrite <- Z.pow_succ_r by lia; f_equal; lia).
  destruct (Z.testbit z (n - 1)) eqn:T.
  - assert (2 ^ (n - 1) <= z); [|lia]. destruct (Z.lt_ge_cases z (2 ^ (n - 1))); [|lia]. rewrite (testbit_small z (n - 1) (n - 1)) in T by lia. discriminate.
  - assert (z < 2 ^ (n - 1)); [|lia]. apply bits_small; [lia|lia|]. intros p Hp. destruct (Z.eq_dec p (n - 1)) as [->|]; [exact T|]. apply testbit_small with n; lia.
Qed.
Lemma twos_neg n z : 1 <= n -> 0 <= z < 2 ^ n -> twos n z < 0 -> twos n z = z - 2 ^ n.
Proof. intros Hn Hz. unfold twos. destruct (Z.testbit z (n - 1)); lia. Qed.
Lemma twos_mod n z : 0 <= n -> twos n z mod 2 ^ n = z mod 2 ^ n.
Proof. intros Hn. unfold twos. pose proof (pow2_pos n Hn). destruct (Z.testbit z (n - 1)); [|reflexivity]. apply mod_eq_shift with (-1); lia. Qed.

Lemma extend_ones n m z : 0 <= n <= m -> 0 <= z < 2 ^ n -> forall e,
  (forall p, 0 <= p -> Z.testbit e p = ((n <=? p) && (p <? m)) || Z.testbit z p) -> e = z + (2 ^ m - 2 ^ n).
Proof.
  intros Hnm Hz e B. replace (2 ^ m - 2 ^ n) with (Z.shiftl (2 ^ (m - n) - 1) n).
  2:{ rewrite Z.shiftl_mul_pow2 by lia. rewrite Z.mul_sub_distr_r, <- Z.pow_add_r, Z.mul_1_l by lia. f_equal. f_equal. lia. }
  rewrite <- lor_disjoint_add.
  - apply Z.bits_inj'. intros p Hp. rewrite B, Z.lor_spec, Z.shiftl_spec, testbit_ones by lia. rewrite orb_comm. f_equal. lia.
  - apply Z.bits_inj'. intros p Hp. rewrite Z.land_spec, Z.shiftl_spec, testbit_ones, Z.bits_0 by lia.
    destruct (Z.lt_ge_cases p n); [replace (0 <=? p - n) with false by lia; apply andb_false_r|]. rewrite (testbit_small z n p) by lia. reflexivity.
Qed.

Lemma widen_num x n s m both : is_num x n s -> n <= m -> (both = true -> s = true) -> widens x m both ->
  exists l, bn_extend n s (n_ws x) m = Ok l /\ wfn m l /\ words_num l mod 2 ^ m = oper x both mod 2 ^ m /\
    (inwidth x -> words_num l < 2 ^ m) /\ (n = m -> l = n_ws x).
Proof.
  intros H Hm Hb Wd. unnum H. pose proof (raw_range _ _ _ H) as Rr. unfold raw in Rr.
  destruct (bn_extend_spec n s (n_ws x) m ltac:(lia) W) as (l & El & Wl & U & S). exists l. split; [exact El|]. split; [exact Wl|].
  pose proof (magn_range x n s H) as Rx.
  assert (IV : oper x both mod 2 ^ n = words_num (n_ws x) mod 2 ^ n).
  { unfold oper, ival. destruct both; [rewrite (G), (Hb eq_refl), E; rewrite twos_mod by lia|]; unfold magn; rewrite E; apply Z.mod_mod, Z.pow_nonzero; lia. }
  unfold inwidth in *. unfold raw in *. rewrite E in *.
  destruct (Z.eq_dec n m) as [<-|Ne].
  - rewrite U by auto. split; [symmetry; exact IV|]. split; [auto|]. intros _. unfold bn_extend in El. rewrite Z.ltb_irrefl, Z.eqb_refl in El. now injection El.
  - unfold widens, inwidth, raw in Wd. rewrite E in Wd. destruct Wd as [?|[C Wd]]; [lia|]. pose proof (pow2_mono n m ltac:(lia)). split; [|split; [|lia]].
    + assert (Mx : magn x = words_num (n_ws x)) by (unfold magn, raw; rewrite E; apply Z.mod_small; lia).
      destruct both; cbn [oper] in *.
      * rewrite (Hb eq_refl) in *. pose proof Wd as Wd'. unfold ival in Wd |- *. rewrite G, E in Wd |- *.
        rewrite twos_neg by (auto; lia). rewrite (extend_ones n m (words_num (n_ws x)) ltac:(lia) ltac:(lia) (words_num l) (S eq_refl)).
        rewrite Mx. apply mod_eq_shift with 1; [apply pow2_pos; lia|]. lia.
      * rewrite G in Wd. subst s. rewrite U by auto. rewrite Mx. reflexivity.
    + intros _. destruct s.
      * rewrite (extend_ones n m (words_num (n_ws x)) ltac:(lia) ltac:(lia) (words_num l) (S eq_refl)). lia.
      * rewrite U by auto. lia.
Qed.

Lemma extend_num x n s m : is_num x n s -> n <= m < 2 ^ 32 -> widens x m s ->
  exists r, num_extend x m = Ok r /\ is_num r m s /\ magn r = ival x mod 2 ^ m /\ (inwidth x -> inwidth r).
Proof.
  intros H Hm Wd. unnum H. destruct (widen_num x n s m s H ltac:(lia) ltac:(auto) Wd) as (l & El & Wl & Q & C & _).
  exists (mkNum m s l). split; [unfold num_extend; rewrite E, G, El; reflexivity|]. split; [apply is_num_mk; auto; lia|].
  split; [|exact C]. unfold magn, raw. cbn [n_ws n_size]. rewrite Q. unfold oper. destruct s; [reflexivity|]. unfold ival. now rewrite G.
Qed.
Lemma extend_bad x n s m : is_num x n s -> m < n -> num_extend x m = IllFormed.
Proof. intros H Hm. unnum H. unfold num_extend, bn_extend. rewrite E, (proj2 (Z.ltb_ge n m)), (proj2 (Z.eqb_neq m n)) by lia. reflexivity. Qed.

Lemma max_b n m : 1 <= n < 2 ^ 32 -> 1 <= m < 2 ^ 32 -> 1 <= Z.max n m < 2 ^ 32 /\ 0 <= Z.max n m /\ 1 <= Z.max n m.
Proof. lia. Qed.
Ltac Zify.zify_post_hook ::= idtac.
Ltac mb := match goal with A : 1 <= ?n < 2 ^ 32, B : 1 <= ?m < 2 ^ 32 |- context [Z.max ?n ?m] => apply (max_b n m A B) end.

Lemma widen2_num x y n s m t : is_num x n s -> is_num y m t ->
  widens x (Z.max n m) (s && t) -> widens y (Z.max n m) (s && t) ->
  exists l r, bn_widen2 (n_size x) (n_sgn x) (n_ws x) (n_size y) (n_sgn y) (n_ws y) = Ok (l, r) /\
    wfn (Z.max n m) l /\ wfn (Z.max n m) r /\
    words_num l mod 2 ^ Z.max n m = oper x (s && t) mod 2 ^ Z.max n m /\
    words_num r mod 2 ^ Z.max n m = oper y (s && t) mod 2 ^ Z.max n m /\
    (inwidth x -> words_num l < 2 ^ Z.max n m) /\ (inwidth y -> words_num r < 2 ^ Z.max n m).
Proof.
  intros H K Wx Wy. unnum H. unnum K.
  destruct (widen_num x n s (Z.max n m) (s && t) H ltac:(lia) ltac:(destruct s; auto) Wx) as (l & El & Wl & Ql & Cl & _).
  destruct (widen_num y m t (Z.max n m) (s && t) K ltac:(lia) ltac:(destruct s, t; auto) Wy) as (r & Er & Wr & Qr & Cr & _).
  exists l, r. unfold bn_widen2. rewrite E, E0, G, G0, El, Er. auto 10.
Qed.

Lemma binop_num f g x y n s m t : is_num x n s -> is_num y m t ->
  widens x (Z.max n m) (s && t) -> widens y (Z.max n m) (s && t) ->
  (forall a b, wfn (Z.max n m) a -> wfn (Z.max n m) b ->
     words_num a mod 2 ^ Z.max n m = oper x (s && t) mod 2 ^ Z.max n m ->
     words_num b mod 2 ^ Z.max n m = oper y (s && t) mod 2 ^ Z.max n m ->
     (inwidth x -> words_num a < 2 ^ Z.max n m) -> (inwidth y -> words_num b < 2 ^ Z.max n m) ->
     exists r, f (Z.max n m) a b = Ok r /\ wfn (Z.max n m) r /\ words_num r mod 2 ^ Z.max n m = g mod 2 ^ Z.max n m) ->
  exists r, num_binop f x y = Ok r /\ is_num r (Z.max n m) (s && t) /\ magn r = g mod 2 ^ Z.max n m.
Proof.
  intros H K Wx Wy F. destruct (widen2_num x y n s m t H K Wx Wy) as (l & r & El & Wl & Wr & Ql & Qr & Cl & Cr).
  destruct (F l r Wl Wr Ql Qr Cl Cr) as (z & Ez & Wz & Qz). unnum H. unnum K.
  exists (mkNum (Z.max n m) (s && t) z). split.
  - unfold num_binop. rewrite El. cbn [bind]. rewrite E, E0, G, G0, Ez. reflexivity.
  - split; [apply is_num_mk; [mb|exact Wz]|]. exact Qz.
Qed.

(** * Bitwise operators *)
Lemma not_num x n s : is_num x n s -> is_num (num_not x) n s /\ magn (num_not x) = 2 ^ n - 1 - magn x.
Proof.
  intros H. unnum H. destruct W as [W L]. destruct (bn_not_spec n (n_ws x) W) as (W1 & W2 & Q).
  unfold num_not. rewrite E, G. assert (J : is_num (mkNum n s (bn_not n (n_ws x))) n s) by (apply is_num_mk; [lia|split; [exact W1|lia]]).
  split; [exact J|]. unfold magn, raw. cbn [n_ws n_size]. rewrite Q, E, L. pose proof (nwords_bounds n ltac:(lia)). pose proof (pow2_pos n ltac:(lia)).
  pose proof (Z.mod_pos_bound (words_num (n_ws x)) (2 ^ n) ltac:(lia)).
  rewrite <- (Z.mod_small (2 ^ n - 1 - words_num (n_ws x) mod 2 ^ n) (2 ^ n)) by lia.
  replace (64 * nwords n) with (n + (64 * nwords n - n)) by lia. rewrite pow2_split by lia.
  apply mod_eq_shift with (2 ^ (64 * nwords n - n) - 1 - words_num (n_ws x) / 2 ^ n); [lia|].
  rewrite (Z.div_mod (words_num (n_ws x)) (2 ^ n)) at 1 by lia. ring.
Qed.

Lemma and_num x y n s m t : is_num x n s -> is_num y m t -> widens x (Z.max n m) (s && t) -> widens y (Z.max n m) (s && t) ->
  exists r, num_and x y = Ok r /\ is_num r (Z.max n m) (s && t) /\ inwidth r /\
    magn r = Z.land (oper x (s && t)) (oper y (s && t)) mod 2 ^ Z.max n m.
Proof.
  intros H K Wx Wy. pose proof H as (? & _). pose proof K as (? & _).
  destruct (widen2_num x y n s m t H K Wx Wy) as (l & r & El & Wl & Wr & Ql & Qr & _).
  destruct (bn_and_spec (Z.max n m) l r ltac:(mb) Wl Wr) as (Wz & Qz). unnum H. unnum K.
  exists (mkNum (Z.max n m) (s && t) (bn_and (Z.max n m) l r)). split.
  - unfold num_and, num_binop. rewrite El. cbn [bind omap]. now rewrite E, E0, G, G0.
  - split; [apply is_num_mk; [mb|exact Wz]|]. unfold inwidth, magn, raw. cbn [n_ws n_size]. rewrite Qz.
    split; [apply Z.mod_pos_bound, pow2_pos; mb|]. rewrite Z.mod_mod by (apply Z.pow_nonzero; [lia|mb]).
    rewrite !land_mod_pow2 by mb. now rewrite Ql, Qr.
Qed.
Lemma or_num x y n s m t : is_num x n s -> is_num y m t -> widens x (Z.max n m) (s && t) -> widens y (Z.max n m) (s && t) ->
  exists r, num_or x y = Ok r /\ is_num r (Z.max n m) (s && t) /\
    magn r = Z.lor (oper x (s && t)) (oper y (s && t)) mod 2 ^ Z.max n m.
Proof.
  intros H K Wx Wy. pose proof H as (? & _). pose proof K as (? & _). apply binop_num; auto. intros a b Wa Wb Qa Qb _ _.
  destruct (bn_or_spec (Z.max n m) a b Wa Wb) as (Wz & Qz). exists (bn_or a b). split; [reflexivity|]. split; [exact Wz|].
  rewrite Qz, !lor_mod_pow2 by mb. now rewrite Qa, Qb.
Qed.
Lemma xor_num x y n s m t : is_num x n s -> is_num y m t -> widens x (Z.max n m) (s && t) -> widens y (Z.max n m) (s && t) ->
  exists r, num_xor x y = Ok r /\ is_num r (Z.max n m) (s && t) /\
    magn r = Z.lxor (oper x (s && t)) (oper y (s && t)) mod 2 ^ Z.max n m.
Proof.
  intros H K Wx Wy. pose proof H as (? & _). pose proof K as (? & _). apply binop_num; auto. intros a b Wa Wb Qa Qb _ _.
  destruct (bn_xor_spec (Z.max n m) a b Wa Wb) as (Wz & Qz). exists (bn_xor a b). split; [reflexivity|]. split; [exact Wz|].
  rewrite Qz, !lxor_mod_pow2 by mb. now rewrite Qa, Qb.
Qed.

Lemma mask_off_num x n s : is_num x n s -> is_num (num_mask_off x) n s /\ magn (num_mask_off x) = magn x /\ inwidth (num_mask_off x).
Proof.
  intros H. unnum H. destruct (bn_mask_off_spec n (n_ws x) ltac:(lia) W) as (W1 & Q). unfold num_mask_off. rewrite E, G.
  split; [apply is_num_mk; [lia|exact W1]|]. unfold magn, inwidth, raw. cbn [n_ws n_size]. rewrite Q, E.
  split; [apply Z.mod_mod, Z.pow_nonzero; lia|apply Z.mod_pos_bound, pow2_pos; lia].
Qed.

Lemma assign_num op g x y n s m t : is_num x n s -> is_num y m t -> m <= n -> (s = true -> t = true) ->
  (exists r, op x y = Ok r /\ is_num r (Z.max n m) (s && t) /\ magn r = g mod 2 ^ Z.max n m) ->
  exists r, num_assign_op op x y = Ok r /\ is_num r n s /\ inwidth r /\ magn r = g mod 2 ^ n.
Proof.
  intros H K Hm Hs (r & Er & Kr & Qr). unnum H. unnum K. rewrite Z.max_l in * by lia. unnum Kr.
  assert (J : is_num (mkNum n s (n_ws r)) n s) by (apply is_num_mk; [lia|exact W1]).
  destruct (mask_off_num _ _ _ J) as (J1 & J2 & J3). exists (num_mask_off (mkNum n s (n_ws r))). split.
  - unfold num_assign_op, requires. rewrite E, E0, G, G0, (proj2 (Z.leb_le m n)) by lia. replace (Bool.eqb s (s && t)) with true by (destruct s, t; auto; specialize (Hs eq_refl); discriminate).
    rewrite Er. reflexivity.
  - split; [exact J1|]. split; [exact J3|]. rewrite J2. rewrite <- Qr. unfold magn, raw. cbn [n_ws n_size]. now rewrite E1.
Qed.
Lemma assign_bad op x y n s m t : is_num x n s -> is_num y m t -> n < m \/ (s = true /\ t = false) -> num_assign_op op x y = IllFormed.
Proof.
  intros H K D. unnum H. unnum K. unfold num_assign_op, requires. rewrite E, E0, G, G0.
  destruct (Z.leb_spec m n); [|reflexivity]. destruct D as [D|[-> ->]]; [lia|]. reflexivity.
Qed.
Lemma and_assign_num x y n s m t : is_num x n s -> is_num y m t -> m <= n -> (s = true -> t = true) -> widens y n s ->
  exists r, num_and_assign x y = Ok r /\ is_num r n s /\ inwidth r /\ magn r = Z.land (oper x s) (oper y s) mod 2 ^ n.
Proof.
  intros H K Hm Hs Wy. pose proof H as (_ & E & _).
  assert (ST : s && t = s) by (destruct s, t; auto; specialize (Hs eq_refl); discriminate).
  apply (assign_num _ _ x y n s m t); auto. destruct (and_num x y n s m t) as (r & A & B & _ & C); rewrite ?ST, ?Z.max_l in * by exact Hm; auto.
  - left. exact E.
  - exists r. auto.
Qed.
Lemma xor_assign_num x y n s m t : is_num x n s -> is_num y m t -> m <= n -> (s = true -> t = true) -> widens y n s ->
  exists r, num_xor_assign x y = Ok r /\ is_num r n s /\ inwidth r /\ magn r = Z.lxor (oper x s) (oper y s) mod 2 ^ n.
Proof.
  intros H K Hm Hs Wy. pose proof H as (_ & E & _).
  assert (ST : s && t = s) by (destruct s, t; auto; specialize (Hs eq_refl); discriminate).
  apply (assign_num _ _ x y n s m t); auto. destruct (xor_num x y n s m t) as (r & A & B & C); rewrite ?ST, ?Z.max_l in * by exact Hm; auto.
  - left. exact E.
  - exists r. auto.
Qed.
