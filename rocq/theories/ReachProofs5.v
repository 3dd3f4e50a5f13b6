(** Which 4-state vectors a program can make. *)
From Coq Require Import ZArith List Bool Lia Zify ZifyBool.
From Verif Require Import Cpp BigNum Bit Logic Util More Rest Spec Reach ZBits Words BigNumProofs BigArith BitProofs BitExt BitMain4 LawProofs MoreProofs ReachProofs ReachProofs2 ReachProofs3 ReachProofs4.
Import ListNotations.
Open Scope Z_scope.
Local Ltac Zify.zify_post_hook ::= idtac.

Lemma in_ity_ext t a b : in_ity t a = true -> in_ity t b = true -> (forall p, 0 <= p < iwidth t -> Z.testbit a p = Z.testbit b p) -> a = b.
Proof.
  intros A B H. assert (D : t = TBool \/ t <> TBool) by (destruct t; auto; right; discriminate). destruct D as [-> | D].
  - apply in_bool in A. apply in_bool in B. specialize (H 0 ltac:(cbn; lia)). destruct A as [-> | ->], B as [-> | ->]; try reflexivity; discriminate.
  - rewrite <- (conv_id _ _ A), <- (conv_id _ _ B). apply conv_cong; [exact D|]. pose proof (iwidth_pos t). apply Z.bits_inj'. intros p Hp.
    rewrite !testbit_mod_pow2 by lia. destruct (Z.ltb_spec p (iwidth t)); [|reflexivity]. rewrite H by lia. reflexivity.
Qed.
Lemma big_ext ws ws' : wf ws -> wf ws' -> wlen ws = wlen ws' -> (forall p, 0 <= p -> Z.testbit (words_num ws) p = Z.testbit (words_num ws') p) -> ws = ws'.
Proof. intros A B L H. apply words_inj; [exact A|exact B|unfold wlen in L; lia|]. apply Z.bits_inj'. exact H. Qed.
Lemma plain_pos b n i : 1 <= n -> plain b n -> 0 <= i < n -> wr_pos b i = i.
Proof. intros Hn [A B] Hi. unfold wr_pos, rd_pos. rewrite A, B. unfold big_endian. destruct (Z.leb_spec 0 (n - 1)); lia. Qed.
Lemma phys_idx b n i x : 1 <= n < 2 ^ 31 -> plain b n -> 0 <= i < n -> bit_set b i x = match bval b with
  | HN v => let! v' := native_set (hty (bsize b) (bsgn b)) v i x in Ok (mkBit (bmsb b) (blsb b) (bsgn b) (HN v'))
  | HB ws => Ok (mkBit (bmsb b) (blsb b) (bsgn b) (HB (bn_set (bsize b) ws i x))) end.
Proof.
  intros Hn [A B] Hi. unfold bit_set. cbv zeta. rewrite A, B. unfold big_endian. destruct (Z.leb_spec 0 (n - 1)); [|lia]. rewrite Z.min_l by lia. rewrite Z.sub_0_r, u64_id by lia. reflexivity.
Qed.
Lemma typed_small b n s : 1 <= n -> typed b n s -> n < 2 ^ 31.
Proof. intros Hn T. destruct (vec_facts b (proj1 T)) as (_ & _ & R). rewrite (typed_bw _ _ _ Hn T) in R. lia. Qed.
Lemma stored_zero m l s : stored (bit_zero m l s) = 0.
Proof. unfold stored, bit_zero. cbn [bval]. destruct (native_num _); [reflexivity|]. apply bn_zero_num. Qed.
(** writing a position with what it holds changes nothing *)
Lemma set_same b n s i : 1 <= n -> typed b n s -> 0 <= i < n -> bit_set b i (bit_at b i) = Ok b.
Proof.
  intros Hn T Hi. assert (Bn : 1 <= n < 2 ^ 31) by (split; [lia|]; apply (typed_small b n s Hn T)).
  rewrite (phys_idx b n _ _ Bn (proj1 (proj2 T)) Hi). assert (BA : bit_at b i = Z.testbit (stored b) i) by (apply bit_at_stored; rewrite (typed_bw _ _ _ Hn T); lia).
  rewrite BA. destruct (typed_cases b n s Hn T) as [(v & -> & R & I) | (ws & -> & R & W)]; unfold bsize, stored; cbn [bval bmsb blsb bsgn]; change (vsize (n - 1) 0) with (width (n - 1) 0); rewrite width_plain by lia.
  - pose proof (hty_width n s ltac:(lia)). destruct (native_set_spec (hty n s) v i (Z.testbit v i) I ltac:(lia)) as (r & E & I' & B). rewrite E. cbn [bind]. replace r with v; [reflexivity|].
    apply (in_ity_ext (hty n s)); [exact I|exact I'|]. intros p Hp. rewrite B by exact Hp. destruct (Z.eqb_spec p i); [subst; reflexivity|reflexivity].
  - do 3 f_equal. destruct W as [W L]. pose proof (nwords_bounds n ltac:(lia)). apply big_ext; [apply bn_set_wf; exact W|exact W|apply bn_set_len|].
    intros p Hp. rewrite bn_set_spec by (try exact W; lia). destruct (Z.eqb_spec p i); [|reflexivity]. subst. destruct (i <? n); reflexivity.
Qed.
(** any value with any tidy mask *)
Lemma low_bits k n z : 0 <= k <= n -> 0 <= z mod 2 ^ k < 2 ^ n.
Proof. intros H. pose proof (Z.mod_pos_bound z (2 ^ k) (pow2_pos k ltac:(lia))). pose proof (Z.pow_le_mono_r 2 k n ltac:(lia) ltac:(lia)). lia. Qed.
Lemma masked_any n s v : 1 <= n -> typed v n s -> forall m, typed m n false -> tidy m -> made4 (mkLogic v m).
Proof.
  intros Hn Tv. assert (Bn : 1 <= n < 2 ^ 31) by (split; [lia|]; apply (typed_small v n s Hn Tv)).
  assert (STEP : forall k, 0 <= k -> k <= n -> forall m, typed m n false -> tidy m -> (forall p, k <= p < n -> bit_at m p = false) -> made4 (mkLogic v m)).
  2:{ intros m Tm Ym. apply (STEP n); try lia; assumption. }
  intros k Hk. pattern k. apply natlike_ind; [..|exact Hk]; clear k Hk.
  - intros _ m Tm Ym Z0. assert (m = bit_zero (n - 1) 0 false) as ->.
    { assert (Tz : typed (bit_zero (n - 1) 0 false) n false) by (split; [apply zero_vec2, decl_plain; lia|split; [split|]; reflexivity]).
      assert (S0 : stored (bit_zero (n - 1) 0 false) = 0) by (apply stored_zero).
      apply (bit_ext _ _ n Hn Tm Tz Ym).
      - apply (tidy_u_iff _ n Hn Tz). rewrite S0. pose proof (pow2_pos n ltac:(lia)). lia.
      - intros p Hp. rewrite Z0 by exact Hp. rewrite bit_at_stored by (rewrite (typed_bw _ _ _ Hn Tz); exact Hp). rewrite S0, Z.bits_0. reflexivity. }
    apply (M4_bit (n - 1) 0 s v); [apply decl_plain; lia|apply vec_made2, Tv|]. unfold logic_of_bit, bit_convert. destruct Tv as (_ & [A B] & C). rewrite A, B, C, !Z.eqb_refl, eqb_reflx. reflexivity.
  - intros k Hk IH Kn m Tm Ym Z0. destruct (bit_at m k) eqn:Bk.
    2:{ apply IH; [lia|exact Tm|exact Ym|]. intros p Hp. destruct (Z.eq_dec p k) as [->|]; [exact Bk|]. apply Z0. lia. }
    (* clear position k, then set it to x or z again *)
    pose proof (typed_bw _ _ _ Hn Tm) as Wm. pose proof (plain_pos m n k Hn (proj1 (proj2 Tm)) ltac:(lia)) as Pk.
    destruct (bit_set_spec m k false (proj1 Tm) ltac:(rewrite Pk, Wm; lia)) as (m0 & E0 & V0 & A0 & B0 & C0 & D0 & Y0). rewrite Pk, Wm in D0.
    assert (T0 : typed m0 n false) by (destruct Tm as (_ & [P Q] & R); split; [exact V0|]; split; [split|]; congruence).
    assert (M0 : made4 (mkLogic v m0)).
    { apply IH; [lia|exact T0|apply Y0; [apply Tm|exact Ym]|]. intros p Hp. rewrite D0 by lia. destruct (Z.eqb_spec p k); [reflexivity|]. apply Z0. lia. }
    pose proof (plain_pos m0 n k Hn (proj1 (proj2 T0)) ltac:(lia)) as Pk0. pose proof (typed_bw _ _ _ Hn T0) as W0.
    destruct (bit_set_spec m0 k true V0 ltac:(rewrite Pk0, W0; lia)) as (m1 & E1 & V1 & A1 & B1 & C1 & D1 & Y1). rewrite Pk0, W0 in D1.
    assert (T1 : typed m1 n false) by (destruct T0 as (_ & [P Q] & R); split; [exact V1|]; split; [split|]; congruence).
    assert (m1 = m) as ->.
    { apply (bit_ext _ _ n Hn T1 Tm); [apply Y1; [apply T0|apply Y0; [apply Tm|exact Ym]]|exact Ym|]. intros p Hp. rewrite D1, D0 by exact Hp. destruct (Z.eqb_spec p k); [subst; auto|reflexivity]. }
    pose proof (set_same v n s k Hn Tv ltac:(lia)) as SV. destruct (bit_at v k).
    + apply (M4_set_z _ k _ M0). unfold logic_set_z. cbn [l_val l_xz]. rewrite E1. cbn [bind]. rewrite SV. reflexivity.
    + apply (M4_set_x _ k _ M0). unfold logic_set_x. cbn [l_val l_xz]. rewrite E1. cbn [bind]. rewrite SV. reflexivity.
Qed.
Lemma lvec_made4_big l : lvec l -> 65 <= lw l -> tidy (l_xz l) -> made4 l.
Proof.
  intros L W Y. pose proof (decl_l l L) as D. destruct (vec_facts _ (proj1 L)) as (_ & _ & R). unfold lw in W. pose proof (lvec_bw l L) as WX. destruct L as (V & X & LM & LL & LS).
  vcase (l_val l) V; [lia|]. vcase (l_xz l) X; [lia|]. destruct l as [[vm vl vs vv] [xm xl xs xx]]; cbn [l_val l_xz bmsb blsb bsgn bval] in *; subst. unfold lmsb, llsb in D. cbn [l_val bmsb blsb] in D.
  unfold bw in *. cbn [bmsb blsb] in *. set (n := width vm vl) in *.
  assert (Tv : typed (mkBit (n - 1) 0 vs (HB ws)) n vs) by (split; [apply vec_plain_big; [lia|exact Ib]|split; [split|]; reflexivity]).
  assert (Tm : typed (mkBit (n - 1) 0 false (HB ws0)) n false) by (split; [apply vec_plain_big; [lia|exact Ib0]|split; [split|]; reflexivity]).
  apply (M4_binary logic_assign (logic_default vm vl vs) (mkLogic (mkBit (n - 1) 0 vs (HB ws)) (mkBit (n - 1) 0 false (HB ws0)))).
  - cbn [In binary4]. tauto.
  - apply M4_default. exact D.
  - apply (masked_any n vs _ ltac:(lia) Tv _ Tm). apply (tidy_u_iff _ n ltac:(lia) Tm). unfold tidy in Y. cbn [bval] in Y. exact Y.
  - unfold logic_assign, bit_assign, holder_assign, native_num. cbn [l_val l_xz logic_default]. change (bsize (bit_zero vm vl vs)) with n. change (bsize (bit_mask vm vl false)) with n.
    destruct (Z.leb_spec n 64); [lia|]. cbn [bval]. assert (E : forall t w, bsize (mkBit (n - 1) 0 t (HB w)) = n) by (intros; apply width_plain; lia). rewrite !E, Z.eqb_refl. reflexivity.
Qed.
Lemma lvec_made4_nat l : lvec l -> lw l <= 64 -> made4 l.
Proof.
  intros L W. pose proof (decl_l l L) as D. destruct (vec_facts _ (proj1 L)) as (_ & _ & R). unfold lw in W. pose proof (lvec_bw l L) as WX. destruct L as (V & X & LM & LL & LS).
  vcase (l_val l) V; [|lia]. vcase (l_xz l) X; [|lia]. destruct l as [[vm vl vs vv] [xm xl xs xx]]; cbn [l_val l_xz bmsb blsb bsgn bval] in *; subst. unfold lmsb, llsb in D. cbn [l_val bmsb blsb] in D.
  unfold bw in *. cbn [bmsb blsb] in *. set (n := width vm vl) in *. clear Sb Sb0.
  (* the same contents in a vector that fills its storage *)
  assert (exists N, 1 <= N <= 64 /\ hty N vs = hty n vs /\ hty N false = hty n false /\ 0 <= v0 < 2 ^ N) as (N & RN & H1 & H2 & HV).
  { apply in_ity_range in Ib0. revert Ib0. unfold hty. destruct (Z.leb_spec n 1); [intros Q; exists 1; repeat split; cbn in Q |- *; lia|]. destruct (Z.leb_spec n 8); [intros Q; exists 8; repeat split; cbn in Q |- *; lia|].
    destruct (Z.leb_spec n 16); [intros Q; exists 16; repeat split; cbn in Q |- *; lia|]. destruct (Z.leb_spec n 32); [intros Q; exists 32; repeat split; cbn in Q |- *; lia|]. intros Q; exists 64; repeat split; cbn in Q |- *; lia. }
  assert (Tv : typed (mkBit (N - 1) 0 vs (HN v)) N vs).
  { split; [|split; [split|]; reflexivity]. rewrite <- (conv_id _ _ Ib). apply vec_plain_conv; [lia|congruence]. }
  assert (Tm : typed (mkBit (N - 1) 0 false (HN v0)) N false).
  { split; [|split; [split|]; reflexivity]. rewrite <- (conv_id _ _ Ib0). apply vec_plain_conv; [lia|congruence]. }
  apply (M4_binary logic_assign (logic_default vm vl vs) (mkLogic (mkBit (N - 1) 0 vs (HN v)) (mkBit (N - 1) 0 false (HN v0)))).
  - cbn [In binary4]. tauto.
  - apply M4_default. exact D.
  - apply (masked_any N vs _ ltac:(lia) Tv _ Tm). apply (tidy_u_iff _ N ltac:(lia) Tm). exact HV.
  - unfold logic_assign, bit_assign, holder_assign, native_num. cbn [l_val l_xz logic_default]. change (bsize (bit_zero vm vl vs)) with n. change (bsize (bit_mask vm vl false)) with n.
    destruct (Z.leb_spec n 64); [|lia]. cbn [bval bind]. change (bsgn (bit_zero vm vl vs)) with vs. change (bsgn (bit_mask vm vl false)) with false. rewrite !conv_id by assumption. reflexivity.
Qed.
