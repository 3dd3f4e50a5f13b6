(** Bitwise operators, shifts and comparisons against the reference machine. *)
From Coq Require Import ZArith List Bool Lia Zify ZifyBool.
From Verif Require Import Cpp BigNum Bit Logic Spec SpecExact SpecMachine ZBits Words BigNumProofs BigArith BitProofs BitSlice BitExt BitOps BitShift BitArith BitMain BitMain2 Exact2 Exact3 MachineProofs.
Import ListNotations.
Open Scope Z_scope.
Local Ltac Zify.zify_post_hook ::= idtac.

Ltac native a x E N I S :=
  match goal with V : vec a |- _ => destruct (vec_cases a V) as [(x & E & N & I & S) | (x & E & N & _)]; [|lia] end.

(** * bitwise *)
Lemma mask_off_machine n s z : 2 <= n <= 64 -> bit_mask_off (vector n s z) = vector n s (z mod 2 ^ n).
Proof.
  intros H. unfold bit_mask_off, vector. cbn [bmsb blsb bsgn bval]. apply f_equal, f_equal.
  unfold bsize, vsize. cbn [bmsb blsb]. replace (Z.abs (n - 1 - 0) + 1) with n by lia.
  unfold native_mask_off. replace (1 <? n) with true by lia. cbn zeta. rewrite conv_store by lia. apply store_mod; [exact H|].
  destruct (storage_cases n H) as (L1 & L2 & S & W).
  assert (U : iwidth (uac (hty n s) (promote (hty n false))) = cwidth n).
  { rewrite <- (cwidth_uac n s false) by lia. destruct (hty n s), (hty n false); reflexivity. }
  rewrite c_and_mod by (rewrite U, <- computing_cwidth; lia).
  assert (M : Z.shiftr (cmax (hty n false)) (szbits (hty n s) - n) = Z.ones n).
  { rewrite hty_sz, szbits_nb by (apply hty_nb; lia). unfold cmax. rewrite hty_signed by lia. rewrite W, Z.sub_1_r, <- Z.ones_equiv.
    rewrite Z.ones_equiv. rewrite <- Z.sub_1_r. rewrite Z.shiftr_div_pow2 by lia. rewrite Z.ones_equiv, <- Z.sub_1_r.
    symmetry. apply Z.div_unique with (2 ^ (storage n - n) - 1).
    - left. assert (0 < 2 ^ (storage n - n)) by (apply pow2_pos; lia). lia.
    - replace (storage n) with ((storage n - n) + n) at 1 by lia. rewrite Z.pow_add_r by lia. ring. }
  rewrite M, Z.land_ones by lia. f_equal. rewrite <- (mod_mod_pow2 _ n (storage n)) by lia.
  assert (Q : store n s z mod 2 ^ storage n = z mod 2 ^ storage n).
  { unfold store. replace (n =? 1) with false by lia. unfold wrap. destruct s; [|apply Z.mod_mod; apply Z.pow_nonzero; lia].
    fold (swrap (storage n) z). apply swrap_mod. lia. }
  rewrite Q. apply mod_mod_pow2. lia.
Qed.
Section Bitwise.
Variables (zop : Z -> Z -> Z) (cop : ity -> ity -> Z -> Z -> Z) (g : Z -> list Z -> list Z -> outcome (list Z)).
Hypothesis copmod : forall ta tb a b k, 0 <= k <= iwidth (uac ta tb) -> cop ta tb a b mod 2 ^ k = zop a b mod 2 ^ k.
Hypothesis copbool : forall a b, (a = 0 \/ a = 1) -> (b = 0 \/ b = 1) -> cop TBool TBool a b = zop a b.
Let same (a b : bit) := bit_bin (fun ta tb x y => Ok (cop ta tb x y)) g a b.
Lemma bitwise_any a b : vec a -> vec b -> bw a <= 64 -> bw b <= 64 ->
  (if bsize a =? bsize b then same a b else omap bit_mask_off (bit_mixed same a b)) = bitwise zop a b.
Proof.
  intros Va Vb Ha Hb. destruct (wider_le a b Ha Hb) as (W & La & Lb). unfold bitwise. cbn zeta.
  assert (K : vector (wider a b) (both_signed a b) (cop (hty (wider a b) (bsgn a)) (hty (wider a b) (bsgn b)) (stored a) (stored b)) =
              vector (wider a b) (both_signed a b) (zop (stored a) (stored b))).
  { destruct (Z.eq_dec (wider a b) 1) as [E | E].
    - pose proof (stored_in a (wider a b) Va ltac:(lia)) as Ix. pose proof (stored_in b (wider a b) Vb ltac:(lia)) as Iy. rewrite E, hty_1 in *.
      apply in_bool in Ix. apply in_bool in Iy. rewrite hty_1, copbool by assumption. reflexivity.
    - apply vector_mod; [lia|]. apply copmod. rewrite cwidth_uac, <- computing_cwidth by lia.
      destruct (storage_cases (wider a b) ltac:(lia)) as (? & ? & ? & ?). lia. }
  assert (B : (if bsize a =? bsize b then same a b else bit_mixed same a b) = if pairs_up a b then
    omap (fun r => vector (wider a b) (both_signed a b) r) (Ok (cop (hty (wider a b) (bsgn a)) (hty (wider a b) (bsgn b)) (stored a) (stored b))) else IllFormed)
    by exact (bin_any (fun ta tb x y => Ok (cop ta tb x y)) (fun _ _ => g) a b Va Vb Ha Hb).
  cbn [omap bind] in B. rewrite K in B. change (bsize a) with (bw a) in *. change (bsize b) with (bw b) in *.
  destruct (Z.eqb_spec (bw a) (bw b)) as [E | E].
  - rewrite B. destruct (pairs_up a b); reflexivity.
  - rewrite B.
    destruct (pairs_up a b); [|reflexivity]. cbn [omap bind negb]. apply f_equal, mask_off_machine.
    unfold wider. pose proof (bw_pos a). pose proof (bw_pos b). lia.
Qed.
End Bitwise.
Lemma and_machine a b : vec a -> vec b -> bw a <= 64 -> bw b <= 64 -> bit_and a b = bitwise Z.land a b.
Proof. apply (bitwise_any Z.land c_and); [intros; apply c_and_mod; assumption|intros ? ? [-> | ->] [-> | ->]; reflexivity]. Qed.
Lemma or_machine a b : vec a -> vec b -> bw a <= 64 -> bw b <= 64 -> bit_or a b = bitwise Z.lor a b.
Proof. apply (bitwise_any Z.lor c_or); [intros; apply c_or_mod; assumption|intros ? ? [-> | ->] [-> | ->]; reflexivity]. Qed.
Lemma xor_machine a b : vec a -> vec b -> bw a <= 64 -> bw b <= 64 -> bit_xor a b = bitwise Z.lxor a b.
Proof. apply (bitwise_any Z.lxor c_xor); [intros; apply c_xor_mod; assumption|intros ? ? [-> | ->] [-> | ->]; reflexivity]. Qed.

(** * shifts *)
Lemma promote_computing n s : 1 <= n <= 64 -> iwidth (promote (hty n s)) = computing n.
Proof. intros. rewrite <- uac_same, cwidth_uac by assumption. reflexivity. Qed.
Lemma shl_machine a k : vec a -> vec k -> bw a <= 64 -> bw k <= 64 -> bit_shl a k = shifted_left a k.
Proof.
  intros Va Vk Ha Hk. native a x Ea Na Ia Sa. native k y Ek Nk Ik Sk.
  unfold bit_shl, shifted_left, shiftable, amount, both_signed. rewrite Ea, Ek, Sa, Sk.
  rewrite (bsize_bw a _ eq_refl). cbn zeta. rewrite conv_store by lia. set (j := store _ _ y).
  assert (Jb : bw a = 1 -> j = 0 \/ j = 1) by (intros E; subst j; rewrite E; unfold store; cbn [Z.eqb Pos.eqb]; destruct (y =? 0); auto).
  clearbody j. unfold c_shl. cbn zeta.
  rewrite promote_computing by lia. destruct ((0 <=? j) && (j <? computing (bw a))) eqn:J; [|reflexivity]. cbn [bind].
  rewrite conv_store by lia. apply f_equal. unfold vector. do 2 apply f_equal. rewrite Z.shiftl_mul_pow2 by lia.
  destruct (Z.eq_dec (bw a) 1) as [E | E].
  - unfold store in *. rewrite E, hty_1 in *. cbn [Z.eqb Pos.eqb] in *. apply in_bool in Ia.
    destruct (Jb eq_refl) as [-> | ->], Ia as [-> | ->]; reflexivity.
  - apply store_mod; [lia|]. apply conv_mod; [apply promote_nb|]. rewrite promote_computing by lia.
    destruct (storage_cases (bw a) ltac:(lia)) as (? & ? & ? & ?). lia.
Qed.
Lemma ashr_machine a k : vec a -> vec k -> bw a <= 64 -> bw k <= 64 -> bit_ashr a k = shifted_arith a k.
Proof.
  intros Va Vk Ha Hk. native a x Ea Na Ia Sa. native k y Ek Nk Ik Sk.
  unfold bit_ashr, shifted_arith, shiftable, amount, both_signed. rewrite Ea, Ek, Sa, Sk.
  rewrite (bsize_bw a _ eq_refl). cbn zeta. rewrite conv_store by lia. set (j := store _ _ y). unfold c_shr. cbn zeta.
  rewrite promote_computing by lia. destruct ((0 <=? j) && (j <? computing (bw a))) eqn:J; [|reflexivity]. cbn [bind].
  rewrite conv_store by lia. rewrite Z.shiftr_div_pow2 by lia. reflexivity.
Qed.

Lemma value_mask_ok t req : 1 <= req <= 64 -> value_mask t req = Ok (conv t (Z.ones req)).
Proof.
  intros H. unfold value_mask, u64. rewrite (Z.mod_small req) by lia. rewrite (Z.mod_small (64 - req)) by lia.
  unfold c_shr. cbn [promote iwidth]. replace ((0 <=? 64 - req) && (64 - req <? 64)) with true by lia. cbn [bind].
  do 2 f_equal. rewrite Z.shiftr_div_pow2 by lia. rewrite Z.ones_equiv, <- Z.sub_1_r. unfold u64max. symmetry.
  apply Z.div_unique with (2 ^ (64 - req) - 1).
  - left. assert (0 < 2 ^ (64 - req)) by (apply pow2_pos; lia). lia.
  - replace 64 with ((64 - req) + req) at 1 by lia. rewrite Z.pow_add_r by lia. ring.
Qed.
Lemma value_mask_ub t req : - 2 ^ 63 <= req < 2 ^ 64 -> ~ 1 <= req <= 64 -> value_mask t req = UB.
Proof.
  intros R H. unfold value_mask, u64.
  assert (K : 64 <= (64 - req mod 2 ^ 64) mod 2 ^ 64).
  { destruct (Z_lt_le_dec req 0) as [L | L].
    - replace (req mod 2 ^ 64) with (req + 2 ^ 64) by (symmetry; rewrite <- (Z_mod_plus_full req 1); apply Z.mod_small; lia).
      rewrite <- (Z_mod_plus_full _ 1), Z.mod_small by lia. lia.
    - rewrite (Z.mod_small req) by lia. destruct (Z.eq_dec req 0) as [-> | N]; [vm_compute; discriminate|].
      rewrite <- (Z_mod_plus_full _ 1), Z.mod_small by lia. lia. }
  unfold c_shr. cbn [promote iwidth]. replace (_ && _) with false by lia. reflexivity.
Qed.
(** the number of positions left, as C++ computes it *)
Lemma left_over n m s k : 1 <= n <= 64 -> 1 <= m <= 64 -> in_ity (hty m s) k = true ->
  let d := if with_sign m true s then n - k else (n - k) mod 2 ^ computing m in
  c_sub TI32 (hty m s) n k = if with_sign m true s && negb (fitting (computing m) d) then UB else Ok d.
Proof.
  intros Hn Hm I d. unfold c_sub. cbn zeta.
  assert (T : uac TI32 (hty m s) = promote (hty m s)) by (destruct (hty m s); reflexivity). rewrite T.
  assert (W : iwidth (promote (hty m s)) = computing m) by (apply promote_computing; exact Hm).
  assert (S : isigned (promote (hty m s)) = with_sign m true s).
  { rewrite <- uac_same, uac_sign by exact Hm. unfold with_sign. rewrite andb_diag. reflexivity. }
  rewrite (conv_promote _ k) by exact I.
  assert (N : conv (promote (hty m s)) n = n).
  { apply conv_id. apply in_ity_range. rewrite S, W. unfold computing. destruct (with_sign m true s), (m <=? 32); cbn; lia. }
  rewrite N. unfold arith. rewrite S, W. subst d. destruct (with_sign m true s) eqn:Q; [|reflexivity].
  rewrite in_ity_fitting by exact S. rewrite W. destruct (fitting _ _); reflexivity.
Qed.
Lemma fitting_bound w z : w = 32 \/ w = 64 -> fitting w z = true -> - 2 ^ 63 <= z < 2 ^ 63.
Proof. intros [-> | ->] F; unfold fitting in F; cbn in F; lia. Qed.
Lemma computing_two n : computing n = 32 \/ computing n = 64. Proof. unfold computing. destruct (n <=? 32); auto. Qed.
Lemma in_64 m s k : 1 <= m <= 64 -> in_ity (hty m s) k = true -> - 2 ^ 63 <= k < 2 ^ 64 /\ (s = false -> 0 <= k).
Proof.
  intros H I. apply in_values in I; [|exact H]. destruct (Z.eqb_spec m 1); [lia|].
  destruct (storage_cases m ltac:(lia)) as (_ & _ & [E | [E | [E | E]]] & _); rewrite E in I; cbn in I; destruct s; lia.
Qed.

Lemma shr_machine a k : vec a -> vec k -> bw a <= 64 -> bw k <= 64 -> bit_shr a k = shifted_right a k.
Proof.
  intros Va Vk Ha Hk. native a x Ea Na Ia Sa. native k y Ek Nk Ik Sk.
  unfold shifted_right. cbn zeta. destruct (Z.eqb_spec (bw a) 1) as [E | E].
  - unfold bit_shr, one_minus, both_signed. rewrite Ea, Ek, Sa, Sk. rewrite (bsize_bw a _ eq_refl), (bsize_bw k _ eq_refl), E in *. cbn zeta.
    rewrite hty_1 in *. apply in_bool in Ia. rewrite (left_over 1 (bw k) (bsgn k) y) by (lia || assumption). cbn zeta.
    set (d := if with_sign (bw k) true (bsgn k) then 1 - y else (1 - y) mod 2 ^ computing (bw k)).
    assert (R : exists r, c_shr TBool x (conv TBool y) = Ok r /\ r = if y =? 0 then x else 0).
    { cbn [conv]. destruct (y =? 0), Ia as [-> | ->]; eexists; split; reflexivity. }
    destruct R as (r & -> & Er). cbn [bind].
    assert (Dr : with_sign (bw k) true (bsgn k) && negb (fitting (computing (bw k)) d) = true -> (1 <=? d) && (d <=? 64) = false).
    { intros F. apply andb_true_iff in F. destruct F as [_ F]. unfold fitting in F. destruct (computing_two (bw k)) as [C | C]; rewrite C in F; cbn in F; lia. }
    destruct (with_sign (bw k) true (bsgn k) && negb (fitting (computing (bw k)) d)) eqn:F; [rewrite Dr by reflexivity; reflexivity|].
    cbn [bind]. assert (B : - 2 ^ 63 <= d < 2 ^ 64).
    { destruct (with_sign (bw k) true (bsgn k)) eqn:Q.
      - cbn [andb] in F. apply negb_false_iff in F. apply fitting_bound in F; [lia|apply computing_two].
      - subst d. destruct (computing_two (bw k)) as [C | C]; rewrite C; match goal with |- context [?z mod ?m] => pose proof (Z.mod_pos_bound z m ltac:(lia)) end; lia. }
    destruct ((1 <=? d) && (d <=? 64)) eqn:D.
    + rewrite value_mask_ok by lia. cbn [bind]. rewrite conv_store by lia. unfold vector. apply f_equal. do 2 apply f_equal.
      assert (O : conv TBool (Z.ones d) = 1).
      { cbn [conv]. assert (1 < 2 ^ d \/ True) by auto. rewrite Z.ones_equiv. assert (2 ^ 1 <= 2 ^ d) by (apply pow2_mono; lia). destruct (Z.eqb_spec (Z.pred (2 ^ d)) 0); lia. }
      rewrite O. rewrite Er. destruct (y =? 0), Ia as [-> | ->]; reflexivity.
    + rewrite value_mask_ub by lia. reflexivity.
  - destruct ((0 <=? stored k) && (stored k <? bw a)) eqn:D.
    + unfold bit_shr, both_signed. rewrite Ea, Ek. rewrite (bsize_bw a _ eq_refl), (bsize_bw k _ eq_refl). rewrite Sk in *. cbn zeta.
      destruct (storage_cases (bw a) ltac:(lia)) as (L1 & L2 & S & W).
      assert (C : conv (hty (bw a) (bsgn a)) y = y).
      { apply conv_id. apply in_ity_range. rewrite hty_signed, hty_iw by lia. rewrite W. destruct S as [Q | [Q | [Q | Q]]]; rewrite Q in *; destruct (bsgn a); cbn; lia. }
      rewrite C. unfold c_shr at 1. cbn zeta. rewrite promote_computing by lia. replace ((0 <=? y) && (y <? computing (bw a))) with true by lia. cbn [bind].
      rewrite (left_over (bw a) (bw k) (bsgn k) y) by (lia || assumption). cbn zeta.
      assert (De : (if with_sign (bw k) true (bsgn k) then bw a - y else (bw a - y) mod 2 ^ computing (bw k)) = bw a - y).
      { destruct (with_sign _ _ _); [reflexivity|]. apply Z.mod_small. destruct (computing_two (bw k)) as [Q | Q]; rewrite Q; lia. }
      rewrite De. replace (fitting (computing (bw k)) (bw a - y)) with true by (unfold fitting; destruct (computing_two (bw k)) as [Q | Q]; rewrite Q; cbn; lia).
      cbn [negb]. rewrite andb_false_r. cbn [bind]. rewrite value_mask_ok by lia. cbn [bind]. rewrite conv_store by lia. rewrite Sa.
      apply f_equal. unfold vector. do 2 apply f_equal. apply store_mod; [lia|].
      set (t := hty (bw a) (bsgn a)). assert (Ut : iwidth (uac (promote t) t) = computing (bw a)).
      { rewrite uac_promote_l. unfold t. rewrite cwidth_uac by lia. reflexivity. }
      rewrite c_and_mod by (rewrite Ut; lia). rewrite Z.shiftr_div_pow2 by lia.
      rewrite <- (Z.land_ones (x / 2 ^ y) (bw a - y)) by lia.
      apply Z.bits_inj'. intros p Hp. rewrite !testbit_mod_pow2 by lia. destruct (Z.ltb_spec p (storage (bw a))); [|reflexivity]. cbn [andb].
      rewrite !Z.land_spec. f_equal. apply conv_testbit; [apply hty_nb; lia|]. unfold t. rewrite hty_iw, W. lia.
    + destruct (Z_lt_le_dec (stored k) 0) as [L | L]; [|apply shr_wide_ub; auto; lia].
      unfold bit_shr. rewrite Ea, Ek. rewrite (bsize_bw a _ eq_refl), (bsize_bw k _ eq_refl). rewrite Sk in *. cbn zeta.
      destruct (storage_cases (bw a) ltac:(lia)) as (L1 & L2 & S & W).
      unfold c_shr at 1. cbn zeta. rewrite promote_computing by lia.
      destruct ((0 <=? conv (hty (bw a) (bsgn a)) y) && (conv (hty (bw a) (bsgn a)) y <? computing (bw a))) eqn:Q; [|reflexivity]. cbn [bind].
      rewrite (left_over (bw a) (bw k) (bsgn k) y) by (lia || assumption). cbn zeta.
      destruct (in_64 _ _ _ Nk Ik) as [R U].
      assert (Sg : bsgn k = true) by (destruct (bsgn k); [reflexivity|lia]).
      assert (Ws : with_sign (bw k) true (bsgn k) = true) by (unfold with_sign; rewrite Sg; cbn [andb]; apply orb_true_r).
      rewrite Ws. cbn [andb]. destruct (fitting _ _) eqn:F; [|reflexivity]. cbn [negb bind].
      apply fitting_bound in F; [|apply computing_two]. rewrite value_mask_ub; [reflexivity|lia|].
      intros [_ B]. rewrite conv_store in Q by lia. unfold store in Q. replace (bw a =? 1) with false in Q by lia. unfold wrap in Q.
      destruct S as [X | [X | [X | X]]]; rewrite X in *; cbn [Z.sub Z.pow] in Q; destruct (bsgn a).
      1,3,5,7: rewrite Z.mod_small in Q by (cbn; lia); lia.
      all: rewrite <- (Z_mod_plus_full y 1), Z.mod_small in Q by (cbn; lia); cbn in Q; destruct (computing_two (bw a)) as [Y | Y]; rewrite Y in Q; lia.
Qed.

(** * comparisons *)
Lemma eq_machine a b : vec a -> vec b -> bw a <= 64 -> bw b <= 64 -> bit_eq a b = Ok (equal_native a b).
Proof.
  intros Va Vb Ha Hb. native a x Ea Na Ia Sa. native b y Eb Nb Ib Sb.
  unfold bit_eq, equal_native. rewrite Ea, Eb, Sa, Sb. rewrite (bsize_bw a _ eq_refl). cbn zeta. apply f_equal.
  unfold c_eq. cbn zeta. rewrite uac_same. rewrite !conv_promote by (exact Ia || apply conv_in_ity). rewrite conv_store by lia. reflexivity.
Qed.
Lemma ne_machine a b : vec a -> vec b -> bw a <= 64 -> bw b <= 64 -> bit_ne a b = Ok (negb (equal_native a b)).
Proof.
  intros Va Vb Ha Hb. native a x Ea Na Ia Sa. native b y Eb Nb Ib Sb.
  unfold bit_ne, equal_native. rewrite Ea, Eb, Sa, Sb. rewrite (bsize_bw a _ eq_refl). cbn zeta. apply f_equal.
  unfold c_ne. cbn zeta. rewrite uac_same. rewrite !conv_promote by (exact Ia || apply conv_in_ity). rewrite conv_store by lia. reflexivity.
Qed.
Lemma rel_machine cmp big a b : vec a -> vec b -> bw a <= 64 -> bw b <= 64 -> bit_rel cmp big a b = Ok (ordered cmp a b).
Proof.
  intros Va Vb Ha Hb. native a x Ea Na Ia Sa. native b y Eb Nb Ib Sb.
  unfold bit_rel, ordered, both_signed. rewrite Ea, Eb, Sa, Sb. rewrite (bsize_bw a _ eq_refl), (bsize_bw b _ eq_refl). cbn zeta.
  destruct (bsgn a && bsgn b) eqn:S; [|reflexivity]. apply andb_true_iff in S. destruct S as [Ga Gb]. rewrite Ga, Gb in *.
  apply f_equal. f_equal; apply conv_id.
  - revert Ia. unfold hty. repeat match goal with |- context [if ?c then _ else _] => destruct c eqn:? end; unfold in_ity; cbn; lia.
  - revert Ib. unfold hty. repeat match goal with |- context [if ?c then _ else _] => destruct c eqn:? end; unfold in_ity; cbn; lia.
Qed.
