(** The native operators of the model against the reference machine of SpecMachine.v. *)
From Coq Require Import ZArith List Bool Lia Zify ZifyBool.
From Verif Require Import Cpp BigNum Bit Logic Spec SpecExact SpecMachine ZBits Words BigNumProofs BigArith BitProofs BitSlice BitExt BitOps BitShift BitArith.
Import ListNotations.
Open Scope Z_scope.
Local Ltac Zify.zify_post_hook ::= idtac.

(** * conversions *)
Lemma conv_store n s z : 1 <= n <= 64 -> conv (hty n s) z = store n s z.
Proof.
  intros H. unfold hty, store, storage, wrap, conv, swrap. destruct s;
  repeat match goal with |- context [if ?c then _ else _] => destruct c eqn:? end; try reflexivity; try discriminate; lia.
Qed.
Lemma store_in n s v : 1 <= n <= 64 -> in_ity (hty n s) v = true -> store n s v = v.
Proof. intros H I. rewrite <- conv_store by exact H. apply conv_id. exact I. Qed.
Lemma computing_cwidth n : computing n = cwidth n. Proof. reflexivity. Qed.
Lemma storage_cases n : 2 <= n <= 64 -> n <= storage n /\ storage n <= computing n /\
  (storage n = 8 \/ storage n = 16 \/ storage n = 32 \/ storage n = 64) /\ iwidth (hty n false) = storage n.
Proof.
  intros H. unfold storage, computing, hty.
  repeat match goal with |- context [if ?c then _ else _] => destruct c eqn:? end; cbn; lia.
Qed.
Lemma store_mod n s z z' : 2 <= n <= 64 -> z mod 2 ^ storage n = z' mod 2 ^ storage n -> store n s z = store n s z'.
Proof.
  intros H E. unfold store. replace (n =? 1) with false by lia. unfold wrap. destruct s; [|exact E].
  f_equal. pose proof (storage_cases n H) as (_ & _ & S & _).
  rewrite (Z.add_mod z), (Z.add_mod z') by (destruct S as [-> | [-> | [-> | ->]]]; discriminate). rewrite E. reflexivity.
Qed.
Lemma vector_mod n s z z' : 2 <= n <= 64 -> z mod 2 ^ storage n = z' mod 2 ^ storage n -> vector n s z = vector n s z'.
Proof. intros H E. unfold vector. rewrite (store_mod n s z z' H E). reflexivity. Qed.
Lemma in_values n s v : 1 <= n <= 64 -> in_ity (hty n s) v = true ->
  if n =? 1 then v = 0 \/ v = 1 else if s then - 2 ^ (storage n - 1) <= v < 2 ^ (storage n - 1) else 0 <= v < 2 ^ storage n.
Proof.
  intros H I. destruct (Z.eqb_spec n 1) as [-> | N].
  - apply in_bool. exact I.
  - apply in_ity_range in I. rewrite hty_signed in I by lia. rewrite hty_iw in I.
    destruct (storage_cases n ltac:(lia)) as (_ & _ & _ & <-). exact I.
Qed.
Lemma in_ity_fitting t z : isigned t = true -> in_ity t z = fitting (iwidth t) z.
Proof. intros S. unfold in_ity, fitting. rewrite S. reflexivity. Qed.

(** what the usual arithmetic conversions do to an operand *)
Lemma conv_operand n sa sb s x : 1 <= n <= 64 -> s = sa \/ s = sb -> in_ity (hty n s) x = true ->
  conv (uac (hty n sa) (hty n sb)) x = operand n sa sb x.
Proof.
  intros H D I. unfold operand, with_sign. destruct ((n <=? 16) || (sa && sb)) eqn:Q.
  - apply uac_conv; [lia|exact Q|]. destruct D as [-> | ->]; auto.
  - pose proof (cwidth_uac n sa sb H) as W. pose proof (uac_sign n sa sb H) as S. rewrite Q in S.
    rewrite computing_cwidth, <- W. destruct (uac (hty n sa) (hty n sb)) eqn:E; cbn in S; try discriminate; try reflexivity.
    exfalso. apply (uac_nb (hty n sa) (hty n sb)). exact E.
Qed.

(** * extension to the width of the wider operand *)
Lemma extend_up x n v m : vec x -> bval x = HN v -> bw x = n -> n < m <= 64 ->
  bit_extend x m = Ok (mkBit (m - 1) 0 (bsgn x) (HN v)) /\ in_ity (hty m (bsgn x)) v = true.
Proof.
  intros V E W H. destruct (vec_cases_n x n V W) as [(v' & E' & N & I & S & _) | (? & E' & _)]; [|congruence].
  assert (Ev : v' = v) by congruence. rewrite Ev in I.
  assert (J : in_ity (hty m (bsgn x)) v = true).
  { revert I. unfold hty. destruct (bsgn x);
    repeat match goal with |- context [if ?c then _ else _] => destruct c eqn:? end; unfold in_ity; cbn; lia. }
  split; [|exact J]. unfold bit_extend, native_num. rewrite (bsize_bw x n W).
  replace (n <? m) with true by lia. rewrite E. replace (m <=? 64) with true by lia.
  unfold bit_of_native. replace (vsize (m - 1) 0) with m by (unfold vsize; lia). rewrite conv_id by exact J. reflexivity.
Qed.
Lemma extend_same x n v : vec x -> bval x = HN v -> bw x = n ->
  bit_extend x n = if bsgn x || ((blsb x =? 0) && (0 <=? bmsb x)) then Ok (mkBit (n - 1) 0 (bsgn x) (HN v)) else IllFormed.
Proof.
  intros V E W. destruct (vec_cases_n x n V W) as [(v' & E' & N & I & S & _) | (? & E' & _)]; [|congruence].
  assert (Ev : v' = v) by congruence. rewrite Ev in I.
  unfold bit_extend. rewrite (bsize_bw x n W), Z.ltb_irrefl, Z.eqb_refl. unfold bit_convert. rewrite eqb_reflx, andb_true_r.
  assert (P : (bmsb x =? n - 1) && (blsb x =? 0) = (blsb x =? 0) && (0 <=? bmsb x)) by (unfold bw, width in W; lia).
  rewrite P. destruct ((blsb x =? 0) && (0 <=? bmsb x)) eqn:Q.
  - rewrite orb_true_r. unfold bw, width in W. destruct x as [m l s h]. cbn in *. f_equal. f_equal; [lia|lia|exact E].
  - rewrite orb_false_r. destruct (bsgn x) eqn:Sx; [|reflexivity].
    unfold holder_assign, native_num. replace (vsize (n - 1) 0) with n by (unfold vsize; lia). replace (n <=? 64) with true by lia.
    rewrite E. cbn [bind]. rewrite conv_id by exact I. reflexivity.
Qed.

(** every native binary operator, for operands of any two widths *)
Section Binary.
Variables (f : ity -> ity -> Z -> Z -> outcome Z) (g : bit -> bit -> Z -> list Z -> list Z -> outcome (list Z)).
Let op (a b : bit) := bit_bin f (g a b) a b.
Lemma bin_same a b n : vec a -> vec b -> bw a = n -> bw b = n -> n <= 64 ->
  op a b = if blsb b <=? bmsb b then
    omap (fun r => vector n (both_signed a b) r) (f (hty n (bsgn a)) (hty n (bsgn b)) (stored a) (stored b)) else IllFormed.
Proof.
  intros Va Vb Wa Wb H.
  destruct (vec_cases_n a n Va Wa) as [(x & Ea & Na & Ia & Sa & _) | (x & Ea & Na & _)]; [|lia].
  destruct (vec_cases_n b n Vb Wb) as [(y & Eb & Nb & Ib & Sb & _) | (y & Eb & Nb & _)]; [|lia].
  unfold op, bit_bin, requires, same_size_op. rewrite (bsize_bw a n Wa), (bsize_bw b n Wb), Z.eqb_refl. cbn [andb].
  destruct (blsb b <=? bmsb b); [|reflexivity]. rewrite Ea, Eb, Sa, Sb.
  destruct (f (hty n (bsgn a)) (hty n (bsgn b)) x y); try reflexivity.
  cbn [bind omap]. rewrite conv_store by lia. reflexivity.
Qed.
Lemma typed_vec m s v : 1 <= m <= 64 -> in_ity (hty m s) v = true -> vec (mkBit (m - 1) 0 s (HN v)).
Proof.
  intros H I. unfold vec, bit_ok, bsize, bw, width, vsize, int_ok. cbn [bmsb blsb bval bsgn].
  replace (Z.abs (m - 1 - 0) + 1) with m by lia. rewrite I. lia.
Qed.
Lemma bin_mixed a b : vec a -> vec b -> bw a <= 64 -> bw b <= 64 -> bw a <> bw b ->
  bit_mixed op a b = if pairs_up a b then
    omap (fun r => vector (wider a b) (both_signed a b) r) (f (hty (wider a b) (bsgn a)) (hty (wider a b) (bsgn b)) (stored a) (stored b)) else IllFormed.
Proof.
  intros Va Vb Ha Hb D.
  destruct (vec_cases a Va) as [(x & Ea & Na & Ia & Sa) | (x & Ea & Na & _)]; [|lia].
  destruct (vec_cases b Vb) as [(y & Eb & Nb & Ib & Sb) | (y & Eb & Nb & _)]; [|lia].
  unfold bit_mixed, pairs_up, wider. rewrite (bsize_bw a _ eq_refl), (bsize_bw b _ eq_refl). cbn zeta. replace (bw a =? bw b) with false by lia.
  set (m := Z.max (bw a) (bw b)). rewrite Sa, Sb.
  assert (K : forall sa sb u v, in_ity (hty m sa) u = true -> in_ity (hty m sb) v = true ->
    op (mkBit (m - 1) 0 sa (HN u)) (mkBit (m - 1) 0 sb (HN v)) = omap (fun r => vector m (sa && sb) r) (f (hty m sa) (hty m sb) u v)).
  { intros sa sb u v Iu Iv. rewrite (bin_same _ _ m).
    - cbn [blsb bmsb]. replace (0 <=? m - 1) with true by lia. reflexivity.
    - apply typed_vec; [lia|exact Iu].
    - apply typed_vec; [lia|exact Iv].
    - unfold bw, width. cbn. lia.
    - unfold bw, width. cbn. lia.
    - lia. }
  destruct (Z.ltb_spec (bw a) (bw b)) as [L | L].
  - replace m with (bw b) in * by lia. destruct (extend_up a _ x (bw b) Va Ea eq_refl ltac:(lia)) as [-> J]. cbn [bind].
    rewrite (extend_same b (bw b) y Vb Eb eq_refl). destruct (bsgn b || _); [|reflexivity]. cbn [bind]. apply K; assumption.
  - replace m with (bw a) in * by lia. rewrite (extend_same a (bw a) x Va Ea eq_refl).
    destruct (bsgn a || _); [|reflexivity]. cbn [bind].
    destruct (extend_up b _ y (bw a) Vb Eb eq_refl ltac:(lia)) as [-> J]. cbn [bind]. apply K; assumption.
Qed.
Lemma bin_any a b : vec a -> vec b -> bw a <= 64 -> bw b <= 64 ->
  (if bsize a =? bsize b then op a b else bit_mixed op a b) = if pairs_up a b then
    omap (fun r => vector (wider a b) (both_signed a b) r) (f (hty (wider a b) (bsgn a)) (hty (wider a b) (bsgn b)) (stored a) (stored b)) else IllFormed.
Proof.
  intros Va Vb Ha Hb. change (bsize a) with (bw a). change (bsize b) with (bw b). destruct (Z.eqb_spec (bw a) (bw b)) as [E | E].
  - rewrite (bin_same a b (bw a)) by auto. unfold pairs_up, wider. rewrite <- E, Z.eqb_refl, Z.max_id. reflexivity.
  - apply bin_mixed; assumption.
Qed.
End Binary.

(** stored numbers as operands of the wider width *)
Lemma stored_in a m : vec a -> bw a <= m <= 64 -> in_ity (hty m (bsgn a)) (stored a) = true.
Proof.
  intros V H. destruct (vec_cases a V) as [(x & E & N & I & S) | (x & E & N & _)]; [|lia]. rewrite S.
  destruct (Z.eq_dec (bw a) m) as [<- | D]; [exact I|].
  apply (extend_up a (bw a) x m V E eq_refl ltac:(lia)).
Qed.
Lemma wider_le a b : bw a <= 64 -> bw b <= 64 -> 1 <= wider a b <= 64 /\ bw a <= wider a b /\ bw b <= wider a b.
Proof. intros. unfold wider. pose proof (bw_pos a). lia. Qed.

(** * arithmetic *)
Section Arith.
Variables (zop : Z -> Z -> Z) (cop : ity -> ity -> Z -> Z -> outcome Z).
Hypothesis copdef : forall ta tb a b, cop ta tb a b = arith (uac ta tb) (zop (conv (uac ta tb) a) (conv (uac ta tb) b)).
Lemma cop_machine n sa sb x y : 1 <= n <= 64 -> in_ity (hty n sa) x = true -> in_ity (hty n sb) y = true ->
  let z := zop (operand n sa sb x) (operand n sa sb y) in
  omap (fun r => vector n (sa && sb) r) (cop (hty n sa) (hty n sb) x y) =
  if with_sign n sa sb && negb (fitting (computing n) z) then UB else Ok (vector n (sa && sb) z).
Proof.
  intros H Ix Iy z. rewrite copdef, (conv_operand n sa sb sa x), (conv_operand n sa sb sb y) by auto.
  fold z. unfold arith. rewrite uac_sign by exact H. fold (with_sign n sa sb).
  destruct (with_sign n sa sb) eqn:Q.
  - rewrite in_ity_fitting by (rewrite uac_sign by exact H; exact Q). rewrite cwidth_uac by exact H. rewrite <- computing_cwidth.
    destruct (fitting (computing n) z); reflexivity.
  - cbn [andb omap bind]. rewrite cwidth_uac by exact H. rewrite <- computing_cwidth. unfold with_sign in Q.
    assert (N : 17 <= n) by lia. destruct (storage_cases n ltac:(lia)) as (_ & L & S & _).
    apply f_equal, vector_mod; [lia|]. apply mod_mod_pow2. lia.
Qed.
End Arith.

Lemma bin_any' f g (same : bit -> bit -> outcome bit) a b : (forall a b, same a b = bit_bin f (g a b) a b) ->
  vec a -> vec b -> bw a <= 64 -> bw b <= 64 ->
  (if bsize a =? bsize b then same a b else bit_mixed same a b) = if pairs_up a b then
    omap (fun r => vector (wider a b) (both_signed a b) r) (f (hty (wider a b) (bsgn a)) (hty (wider a b) (bsgn b)) (stored a) (stored b)) else IllFormed.
Proof.
  intros D Va Vb Ha Hb. rewrite <- (bin_any f g) by assumption. destruct (_ =? _); [apply D|].
  unfold bit_mixed. destruct (bit_extend a _); try reflexivity. cbn [bind]. destruct (bit_extend b _); try reflexivity. apply D.
Qed.
Lemma computed_any (zop : Z -> Z -> Z) cop g same a b :
  (forall ta tb a b, cop ta tb a b = arith (uac ta tb) (zop (conv (uac ta tb) a) (conv (uac ta tb) b))) ->
  (forall a b, same a b = bit_bin cop (g a b) a b) -> vec a -> vec b -> bw a <= 64 -> bw b <= 64 -> bit_arith same a b = computed zop false a b.
Proof.
  intros D S Va Vb Ha Hb. unfold bit_arith. rewrite (bin_any' _ _ _ _ _ S) by assumption. unfold computed. cbn zeta.
  destruct (pairs_up a b); [|reflexivity]. cbn [negb orb].
  destruct (wider_le a b Ha Hb) as (W & La & Lb). apply (cop_machine zop cop D); [exact W| |]; apply stored_in; auto; lia.
Qed.
Lemma add_machine a b : vec a -> vec b -> bw a <= 64 -> bw b <= 64 -> bit_add a b = computed Z.add false a b.
Proof. apply (computed_any Z.add c_add (fun _ _ _ x y => Ok (bn_add x y))); reflexivity. Qed.
Lemma sub_machine a b : vec a -> vec b -> bw a <= 64 -> bw b <= 64 -> bit_sub a b = computed Z.sub false a b.
Proof. apply (computed_any Z.sub c_sub (fun _ _ n x y => Ok (bn_sub n x y))); reflexivity. Qed.
Lemma mul_machine a b : vec a -> vec b -> bw a <= 64 -> bw b <= 64 -> bit_mul a b = computed Z.mul false a b.
Proof. apply (computed_any Z.mul c_mul (fun _ _ => bn_mul)); reflexivity. Qed.

(** division *)
Lemma operand_zero n sa sb s y : 1 <= n <= 64 -> s = sa \/ s = sb -> in_ity (hty n s) y = true -> (operand n sa sb y =? 0) = (y =? 0).
Proof.
  intros H D I. unfold operand, with_sign. destruct ((n <=? 16) || (sa && sb)) eqn:Q; [reflexivity|].
  apply (in_values n s y H) in I. replace (n =? 1) with false in I by lia.
  destruct (storage_cases n ltac:(lia)) as (_ & L & S & _).
  assert (C : computing n = storage n) by (unfold computing, storage in *; repeat match goal with |- context [if ?c then _ else _] => destruct c eqn:? end; lia).
  rewrite C. destruct (Z.eqb_spec y 0) as [-> | Ny]; [rewrite Z.mod_0_l by (destruct S as [-> | [-> | [-> | ->]]]; discriminate); reflexivity|].
  apply Z.eqb_neq. intros M. apply Ny. destruct S as [E | [E | [E | E]]]; rewrite E in *; cbn in I, M;
  (apply Z.mod_divide in M; [|discriminate]); destruct M as [q M]; destruct s; lia.
Qed.
Lemma div_machine a b : vec a -> vec b -> bw a <= 64 -> bw b <= 64 -> bit_div a b = computed Z.quot (stored b =? 0) a b.
Proof.
  intros Va Vb Ha Hb. unfold bit_div, bit_arith.
  rewrite (bin_any' c_div (fun a b n x y => omap fst (bn_div_mod n (bsgn a) x (bsgn b) y)) bit_div_same) by (reflexivity || assumption).
  unfold computed. cbn zeta. destruct (pairs_up a b); [|reflexivity]. cbn [negb].
  destruct (wider_le a b Ha Hb) as (W & La & Lb).
  pose proof (stored_in a (wider a b) Va ltac:(lia)) as Ix. pose proof (stored_in b (wider a b) Vb ltac:(lia)) as Iy.
  unfold c_div. cbn zeta. rewrite (conv_operand _ _ _ _ _ W (or_intror eq_refl) Iy).
  rewrite (operand_zero _ _ _ _ _ W (or_intror eq_refl) Iy). destruct (stored b =? 0) eqn:Y; [reflexivity|]. cbn [orb].
  rewrite <- (cop_machine Z.quot (fun ta tb a b => arith (uac ta tb) (Z.quot (conv (uac ta tb) a) (conv (uac ta tb) b)))) by auto.
  rewrite (conv_operand _ _ _ _ _ W (or_intror eq_refl) Iy). reflexivity.
Qed.
Lemma rem_machine a b : vec a -> vec b -> bw a <= 64 -> bw b <= 64 -> bit_rem a b = remainder a b.
Proof.
  intros Va Vb Ha Hb. unfold bit_rem, bit_arith.
  rewrite (bin_any' c_rem (fun a b n x y => omap snd (bn_div_mod n (bsgn a) x (bsgn b) y)) bit_rem_same) by (reflexivity || assumption).
  unfold remainder. cbn zeta. destruct (pairs_up a b); [|reflexivity]. cbn [negb].
  destruct (wider_le a b Ha Hb) as (W & La & Lb).
  pose proof (stored_in a (wider a b) Va ltac:(lia)) as Ix. pose proof (stored_in b (wider a b) Vb ltac:(lia)) as Iy.
  unfold c_rem. cbn zeta. rewrite (conv_operand _ _ _ _ _ W (or_intror eq_refl) Iy), (conv_operand _ _ _ _ _ W (or_introl eq_refl) Ix).
  rewrite (operand_zero _ _ _ _ _ W (or_intror eq_refl) Iy). destruct (stored b =? 0) eqn:Y; [reflexivity|]. cbn [orb].
  set (n := wider a b) in *. set (x := operand n _ _ (stored a)) in *. set (y := operand n _ _ (stored b)) in *.
  destruct (with_sign n (bsgn a) (bsgn b)) eqn:Q.
  - rewrite in_ity_fitting by (rewrite uac_sign by exact W; exact Q). rewrite cwidth_uac by exact W. rewrite <- computing_cwidth.
    cbn [andb]. destruct (fitting _ _); reflexivity.
  - cbn [andb]. replace (in_ity _ _) with true; [reflexivity|]. symmetry. apply in_ity_range.
    rewrite uac_sign by exact W. unfold with_sign in Q. rewrite Q. rewrite cwidth_uac by exact W. rewrite <- computing_cwidth.
    assert (P : 0 < 2 ^ computing n) by (unfold computing; destruct (n <=? 32); reflexivity).
    assert (Rx : 0 <= x < 2 ^ computing n) by (unfold x, operand, with_sign; rewrite Q; apply Z.mod_pos_bound; exact P).
    assert (Ry : 0 <= y < 2 ^ computing n) by (unfold y, operand, with_sign; rewrite Q; apply Z.mod_pos_bound; exact P).
    pose proof (operand_zero n (bsgn a) (bsgn b) _ _ W (or_intror eq_refl) Iy) as Z0. fold y in Z0. rewrite Y in Z0.
    assert (Py : 0 < y) by lia. rewrite Z.quot_div_nonneg by lia.
    split; [apply Z.div_pos; lia|]. apply Z.le_lt_trans with x; [|lia]. apply Z.div_le_upper_bound; nia.
Qed.
