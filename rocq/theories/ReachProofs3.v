(** Every well-formed 2-state vector can be made by a program. *)
From Coq Require Import ZArith List Bool Lia Zify ZifyBool.
From Verif Require Import Cpp BigNum Bit Logic Util More Rest Spec Reach ZBits Words BigNumProofs BigArith BitProofs BitExt MoreProofs ReachProofs ReachProofs2.
Import ListNotations.
Open Scope Z_scope.
Local Ltac Zify.zify_post_hook ::= idtac.

Lemma big_number n s v : 65 <= n -> 0 <= v -> bit_of_arith (n - 1) 0 s v = mkBit (n - 1) 0 s (HB (bn_of_native n v)).
Proof.
  intros Hn Hv. unfold bit_of_arith, bit_of_arith_big, native_num. change (vsize (n - 1) 0) with (width (n - 1) 0). rewrite width_plain by lia.
  destruct (Z.leb_spec n 64); [lia|]. destruct (Z.ltb_spec v 0); [lia|]. rewrite andb_false_r. reflexivity.
Qed.
Lemma big_any n s k : 65 <= n < 2 ^ 31 -> 0 <= k -> forall ws, wfn n ws -> words_num ws = k -> made2 (mkBit (n - 1) 0 s (HB ws)).
Proof.
  intros Hn Hk. revert k Hk. apply (natlike_ind (fun k => forall ws, wfn n ws -> words_num ws = k -> made2 (mkBit (n - 1) 0 s (HB ws)))).
  - intros ws W E. assert (ws = bn_of_native n 0) as ->.
    { destruct (bn_of_native_spec n 0 ltac:(lia)) as [W0 E0]. apply words_inj; [apply W|apply W0| |rewrite E, E0; reflexivity]. destruct W as [_ L], W0 as [_ L0]. unfold wlen in *. lia. }
    rewrite <- big_number by lia. apply M2_number. apply decl_plain. lia.
  - intros k Hk IH ws W E. pose proof (nwords_bounds n ltac:(lia)) as NB.
    assert (B : 0 <= words_num ws < 2 ^ (64 * nwords n)).
    { destruct W as [W L]. pose proof (words_num_bound ws W) as B. rewrite L in B. pose proof (words_num_nonneg ws W). lia. }
    set (one := bn_of_native n 1). destruct (bn_of_native_spec n 1 ltac:(lia)) as [W1 E1]. fold one in W1, E1.
    (* the words of k, by subtracting one *)
    set (ws' := bn_sub n ws one). assert (W' : wfn n ws') by (apply sub_wfn; [lia|exact W|exact W1]).
    destruct (bn_sub_spec n ws one ltac:(lia) W W1) as [_ E'].
    assert (K : words_num ws' = k).
    { unfold ws'. rewrite E', E1, E. change (u64 1) with 1. rewrite Z.mod_small by lia. lia. }
    clear E'. clearbody ws'.
    assert (ws = bn_add ws' one) as ->.
    { destruct (bn_add_spec n ws' one ltac:(lia) W' W1) as [WA EA]. apply words_inj; [apply W|apply WA| |].
      - destruct W as [_ L], WA as [_ L0]. unfold wlen in *. lia.
      - rewrite EA, K, E1, E. change (u64 1) with 1. rewrite Z.mod_small by lia. lia. }
    apply (M2_binary bit_add (mkBit (n - 1) 0 s (HB ws')) (mkBit (n - 1) 0 s (HB one))).
    + cbn [In binary2]. tauto.
    + apply IH; assumption.
    + unfold one. rewrite <- big_number by lia. apply M2_number. apply decl_plain. lia.
    + unfold bit_add, bit_arith, bit_add_same, bit_bin, same_size_op. unfold bsize. cbn [bmsb blsb bsgn bval]. change (vsize (n - 1) 0) with (width (n - 1) 0).
      rewrite width_plain by lia. rewrite Z.eqb_refl. destruct (Z.leb_spec 0 (n - 1)); [|lia]. cbn. rewrite andb_diag. reflexivity.
Qed.
Lemma vec_made2 b : vec b -> made2 b.
Proof.
  intros V. pose proof (decl_of b V) as D. destruct (vec_facts b V) as (A & B & C). vcase b V; destruct b as [m l s h]; cbn [bval bmsb blsb bsgn] in *; subst h.
  - replace (mkBit m l s (HN v)) with (bit_of_arith m l s v); [apply M2_number; exact D|].
    unfold bit_of_arith, bit_of_native, native_num. change (vsize m l) with (width m l). unfold bw in *. cbn [bmsb blsb] in *. destruct (Z.leb_spec (width m l) 64); [|lia].
    rewrite conv_id by exact Ib. reflexivity.
  - set (n := width m l) in *. assert (N : bw {| bmsb := m; blsb := l; bsgn := s; bval := HB ws |} = n) by reflexivity. rewrite N in *.
    apply (M2_binary bit_assign (bit_zero m l s) (mkBit (n - 1) 0 s (HB ws))).
    + cbn [In binary2]. tauto.
    + apply M2_default. exact D.
    + apply (big_any n s (words_num ws)); [lia| |exact Ib|reflexivity]. destruct Ib as [W _]. apply (words_num_nonneg ws W).
    + unfold bit_assign, holder_assign, native_num. change (bsize (bit_zero m l s)) with n. destruct (Z.leb_spec n 64); [lia|]. cbn [bval].
      assert (E : bsize (mkBit (n - 1) 0 s (HB ws)) = n) by (apply width_plain; lia). rewrite E, Z.eqb_refl. reflexivity.
Qed.
Lemma made2_iff b : made2 b <-> vec b.
Proof. split; [apply made2_vec|apply vec_made2]. Qed.
