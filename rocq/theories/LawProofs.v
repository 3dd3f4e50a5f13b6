(** Algebraic laws of the 2-state operators, order laws, shift and division laws. *)
From Coq Require Import ZArith List Bool Lia Zify ZifyBool.
From Verif Require Import Cpp BigNum Bit Logic Spec ZBits Words BigNumProofs BigArith BitProofs BitSlice BitExt BitOps
  BitShift BitCmp BitArith BitMain BitMain2 BitMain3 BitMain4 BitMain5 Client ClientProofs.
Import ListNotations.
Open Scope Z_scope.

(** * comparison of vectors of one type *)
Lemma eq_same a b n s : 1 <= n -> typed a n s -> typed b n s -> tidy a -> tidy b -> (s = true -> 2 <= n <= 64) ->
  bit_eq a b = Ok (num a =? num b).
Proof.
  intros Hn Ta Tb Ya Yb S. assert (Wa := typed_bw _ _ _ Hn Ta). assert (Wb := typed_bw _ _ _ Hn Tb).
  assert (Sa := typed_sgn _ _ _ Ta). assert (Sb := typed_sgn _ _ _ Tb). rewrite equality; [| apply Ta | apply Tb |].
  - f_equal. unfold value. rewrite Sa, Sb. destruct s; [|reflexivity]. unfold snum, twos. rewrite Wa, Wb.
    pose proof (num_range a) as Ra. pose proof (num_range b) as Rb. rewrite Wa in Ra. rewrite Wb in Rb.
    destruct (Z.eqb_spec (num a) (num b)) as [->|N]; [apply Z.eqb_refl|].
    destruct (Z.testbit (num a) (n - 1)), (Z.testbit (num b) (n - 1)); lia.
  - unfold eq_ok, extendable. rewrite Sa, Sb, Wa, Wb. split; [reflexivity|]. split; [auto|]. split; [auto|].
    destruct (Z.leb_spec n 64); [left; lia|]. destruct s; [lia|]. right. right. split; [reflexivity|]. split; [lia|]. split; [lia|]. now left.
Qed.
Lemma order_same a b n s : 1 <= n -> typed a n s -> typed b n s -> tidy a -> tidy b -> (s = true -> 2 <= n <= 64) ->
  bit_gt a b = Ok (value b <? value a) /\ bit_lt a b = Ok (value a <? value b) /\
  bit_ge a b = Ok (value b <=? value a) /\ bit_le a b = Ok (value a <=? value b).
Proof.
  intros Hn Ta Tb Ya Yb S. assert (Wa := typed_bw _ _ _ Hn Ta). assert (Wb := typed_bw _ _ _ Hn Tb).
  assert (Sa := typed_sgn _ _ _ Ta). assert (Sb := typed_sgn _ _ _ Tb). unfold value. rewrite Sa, Sb. destruct s.
  - apply order_signed_native; rewrite ?Wa, ?Wb; auto; apply Ta || apply Tb.
  - destruct (Z.leb_spec n 64).
    + apply order_unsigned_native; rewrite ?Wa, ?Wb; auto; try (apply Ta); try (apply Tb).
    + destruct (order_big_unsigned a b ltac:(apply Ta) ltac:(apply Tb)) as (A & B & C); rewrite ?Wa, ?Wb, ?Sa; auto; try lia.
      destruct C as [C1 C2]; [left; now rewrite Wa, Wb|]. auto.
Qed.
Lemma value_inj a b n s : 1 <= n -> typed a n s -> typed b n s -> (value a = value b <-> num a = num b).
Proof.
  intros Hn Ta Tb. assert (Wa := typed_bw _ _ _ Hn Ta). assert (Wb := typed_bw _ _ _ Hn Tb).
  assert (Sa := typed_sgn _ _ _ Ta). assert (Sb := typed_sgn _ _ _ Tb). unfold value. rewrite Sa, Sb. destruct s; [|tauto].
  unfold snum, twos. rewrite Wa, Wb. pose proof (num_range a) as Ra. pose proof (num_range b) as Rb. rewrite Wa in Ra. rewrite Wb in Rb.
  split; [|intros ->; reflexivity]. destruct (Z.testbit (num a) (n - 1)), (Z.testbit (num b) (n - 1)); lia.
Qed.
Lemma same_bits a b n s t : 1 <= n -> typed a n s -> typed b n t -> ((forall i, 0 <= i < n -> bit_at a i = bit_at b i) <-> num a = num b).
Proof.
  intros Hn Ta Tb. split; [|unfold bit_at; intros ->; reflexivity]. intros H. rewrite <- (typed_bw b n t Hn Tb) in H.
  pose proof (num_range b). rewrite (typed_bw b n t Hn Tb) in *.
  apply num_bits; rewrite (typed_bw a n s Hn Ta); [assumption|]. intros p Hp. rewrite H by exact Hp. reflexivity.
Qed.

Lemma order_laws a b n s : 1 <= n -> typed a n s -> typed b n s -> tidy a -> tidy b -> (s = true -> 2 <= n <= 64) ->
  exists lt eq gt, bit_lt a b = Ok lt /\ bit_eq a b = Ok eq /\ bit_gt a b = Ok gt /\
    (lt, eq, gt) = (match value a ?= value b with Lt => (true, false, false) | Eq => (false, true, false) | Gt => (false, false, true) end) /\
    bit_le a b = Ok (lt || eq) /\ bit_ge a b = Ok (gt || eq) /\ bit_ne a b = Ok (negb eq) /\
    bit_gt b a = Ok lt /\ bit_lt b a = Ok gt /\ bit_eq b a = Ok eq /\
    (eq = true <-> forall i, 0 <= i < n -> bit_at a i = bit_at b i).
Proof.
  intros Hn Ta Tb Ya Yb S. destruct (order_same a b n s Hn Ta Tb Ya Yb S) as (A & B & C & D).
  destruct (order_same b a n s Hn Tb Ta Yb Ya S) as (A' & B' & C' & D').
  pose proof (eq_same a b n s Hn Ta Tb Ya Yb S) as E. pose proof (eq_same b a n s Hn Tb Ta Yb Ya S) as E'.
  pose proof (value_inj a b n s Hn Ta Tb) as V. exists (value a <? value b), (num a =? num b), (value b <? value a).
  repeat (split; [assumption|]). split.
  { destruct (Z.compare_spec (value a) (value b)); repeat f_equal; lia. }
  split. { rewrite D. f_equal. lia. } split. { rewrite C. f_equal. lia. }
  split. { rewrite inequality, E. reflexivity. } split. { exact A'. } split. { exact B'. } split. { rewrite E'. f_equal. lia. }
  rewrite Z.eqb_eq. symmetry. apply (same_bits a b n s s Hn Ta Tb).
Qed.
Lemma order_trans a b c n s : 1 <= n -> typed a n s -> typed b n s -> typed c n s -> tidy a -> tidy b -> tidy c -> (s = true -> 2 <= n <= 64) ->
  (bit_lt a b = Ok true -> bit_lt b c = Ok true -> bit_lt a c = Ok true) /\
  (bit_le a b = Ok true -> bit_le b c = Ok true -> bit_le a c = Ok true) /\
  (bit_le a b = Ok true -> bit_lt b c = Ok true -> bit_lt a c = Ok true) /\
  (bit_eq a b = Ok true -> bit_eq b c = Ok true -> bit_eq a c = Ok true).
Proof.
  intros Hn Ta Tb Tc Ya Yb Yc S. destruct (order_same a b n s Hn Ta Tb Ya Yb S) as (_ & L1 & _ & M1).
  destruct (order_same b c n s Hn Tb Tc Yb Yc S) as (_ & L2 & _ & M2). destruct (order_same a c n s Hn Ta Tc Ya Yc S) as (_ & L3 & _ & M3).
  rewrite L1, L2, L3, M1, M2, M3, (eq_same a b n s), (eq_same b c n s), (eq_same a c n s) by assumption.
  repeat split; intros H1 H2; injection H1 as H1; injection H2 as H2; f_equal; lia.
Qed.

(** * laws of expressions *)
Lemma meaning_range n env e : 2 <= n -> good n env -> supported n (fun k => num (env k)) e -> 0 <= meaning n (fun k => num (env k)) e < 2 ^ n.
Proof.
  intros Hn V S. destruct (eval_meaning n env e Hn V S) as (r & _ & T & N & _). rewrite <- N. pose proof (num_range r) as R.
  rewrite (typed_bw r n false ltac:(lia) T) in R. exact R.
Qed.
Lemma agree_of n env e f : 2 <= n -> good n env -> supported n (fun k => num (env k)) e -> supported n (fun k => num (env k)) f ->
  meaning n (fun k => num (env k)) e = meaning n (fun k => num (env k)) f -> agree n env (e, f).
Proof.
  intros Hn V Se Sf M. destruct (eval_meaning n env e Hn V Se) as (r & Er & Tr & Nr & Yr). destruct (eval_meaning n env f Hn V Sf) as (s & Es & Ts & Ns & Ys).
  exists r, s. cbn [fst snd]. repeat (split; [assumption|]). assert (E : num r = num s) by congruence. split.
  - intros i _. unfold bit_at. now rewrite E.
  - intros H. rewrite (eq_same r s n false) by (assumption || tauto || lia || discriminate). rewrite E, Z.eqb_refl. reflexivity.
Qed.
(** [==] on the values of expressions *)
Lemma eq_eval n env e f : 2 <= n -> good n env -> supported n (fun k => num (env k)) e -> supported n (fun k => num (env k)) f ->
  full_width n \/ neat e /\ neat f ->
  exists r s, eval env e = Ok r /\ eval env f = Ok s /\
    bit_eq r s = Ok (meaning n (fun k => num (env k)) e =? meaning n (fun k => num (env k)) f) /\
    bit_lt r s = Ok (meaning n (fun k => num (env k)) e <? meaning n (fun k => num (env k)) f) /\
    bit_ge r s = Ok (meaning n (fun k => num (env k)) f <=? meaning n (fun k => num (env k)) e).
Proof.
  intros Hn V Se Sf F. destruct (eval_meaning n env e Hn V Se) as (r & Er & Tr & Nr & Yr). destruct (eval_meaning n env f Hn V Sf) as (s & Es & Ts & Ns & Ys).
  assert (Yr' : tidy r) by (apply Yr; tauto). assert (Ys' : tidy s) by (apply Ys; tauto).
  exists r, s. split; [exact Er|]. split; [exact Es|].
  destruct (order_same r s n false ltac:(lia) Tr Ts Yr' Ys' ltac:(discriminate)) as (_ & L & G & _).
  rewrite (eq_same r s n false ltac:(lia) Tr Ts Yr' Ys') by discriminate. rewrite L, G. unfold value. rewrite (typed_sgn _ _ _ Tr), (typed_sgn _ _ _ Ts), Nr, Ns. auto.
Qed.

Lemma not_bits n x p : 0 <= n -> 0 <= x < 2 ^ n -> 0 <= p -> Z.testbit (2 ^ n - 1 - x) p = (p <? n) && negb (Z.testbit x p).
Proof.
  intros Hn Hx Hp. rewrite <- (Z.mod_small x (2 ^ n)) at 1 by exact Hx. rewrite <- lnot_mod by exact Hn.
  rewrite testbit_mod_pow2 by exact Hn. rewrite Z.lnot_spec by exact Hp. reflexivity.
Qed.

Lemma add_lor_land x y : Z.lor x y + Z.land x y = x + y.
Proof.
  assert (A : Z.ldiff x y + Z.land x y = x).
  { rewrite Z.add_nocarry_lxor; apply Z.bits_inj'; intros p Hp; rewrite ?Z.lxor_spec, ?Z.land_spec, ?Z.ldiff_spec, ?Z.bits_0, ?Z.land_spec;
    destruct (Z.testbit x p), (Z.testbit y p); reflexivity. }
  assert (B : Z.ldiff x y + y = Z.lor x y).
  { rewrite Z.add_nocarry_lxor; apply Z.bits_inj'; intros p Hp; rewrite ?Z.lxor_spec, ?Z.land_spec, ?Z.ldiff_spec, ?Z.bits_0, ?Z.lor_spec;
    destruct (Z.testbit x p), (Z.testbit y p); reflexivity. }
  lia.
Qed.

Section Laws.
Variables (n : Z) (env : nat -> bit).
Hypotheses (Hn : 2 <= n) (V : good n env).
Let ok e := supported n (fun k => num (env k)) e.
Let m e := meaning n (fun k => num (env k)) e.
Let mr e : ok e -> 0 <= m e < 2 ^ n. Proof. apply meaning_range; assumption. Qed.

Lemma tb_top e p : ok e -> 0 <= p -> (p <? n) = false -> Z.testbit (m e) p = false.
Proof. intros S Hp L. apply (testbit_small _ n); [apply mr, S|lia]. Qed.
Lemma tb_not e p : ok e -> 0 <= p -> Z.testbit (m (Not e)) p = (p <? n) && negb (Z.testbit (m e) p).
Proof. intros S Hp. apply not_bits; [lia|apply mr, S|exact Hp]. Qed.
Lemma tb_and e f p : Z.testbit (m (And e f)) p = Z.testbit (m e) p && Z.testbit (m f) p. Proof. apply Z.land_spec. Qed.
Lemma tb_or e f p : Z.testbit (m (Or e f)) p = Z.testbit (m e) p || Z.testbit (m f) p. Proof. apply Z.lor_spec. Qed.
Lemma tb_xor e f p : Z.testbit (m (Xor e f)) p = xorb (Z.testbit (m e) p) (Z.testbit (m f) p). Proof. apply Z.lxor_spec. Qed.

Ltac sup := unfold ok; cbn [supported]; unfold ok in *; tauto.
Ltac bits a b c := apply Z.bits_inj'; intros p Hp; rewrite ?tb_and, ?tb_or, ?tb_xor;
  repeat (first [rewrite tb_not by (sup || exact Hp) | rewrite tb_and | rewrite tb_or | rewrite tb_xor]);
  destruct (p <? n) eqn:L; rewrite ?(tb_top a p), ?(tb_top b p), ?(tb_top c p) by (sup || exact Hp || exact L);
  destruct (Z.testbit (m a) p), (Z.testbit (m b) p), (Z.testbit (m c) p); reflexivity.

Lemma laws_bitwise a b c : ok a -> ok b -> ok c -> Forall (agree n env) (bitwise_laws a b c).
Proof.
  intros A B C. unfold bitwise_laws.
  repeat (apply Forall_cons; [apply agree_of; [exact Hn|exact V|sup|sup|fold (ok); match goal with |- ?l = ?r =>
    match l with meaning _ _ ?e => match r with meaning _ _ ?f => change (m e = m f) end end end; bits a b c]|]).
  apply Forall_nil.
Qed.

Lemma cong u v : 0 <= u < 2 ^ n -> 0 <= v < 2 ^ n -> u mod 2 ^ n = v mod 2 ^ n -> u = v.
Proof. intros U W. rewrite !Z.mod_small by assumption. trivial. Qed.
Ltac push := repeat first [rewrite Zplus_mod_idemp_l | rewrite Zplus_mod_idemp_r | rewrite Zminus_mod_idemp_l | rewrite Zminus_mod_idemp_r |
  rewrite Z.mul_mod_idemp_l by lia | rewrite Z.mul_mod_idemp_r by lia | rewrite Z.mod_mod by lia].
Lemma opp_mod_idemp z : (- (z mod 2 ^ n)) mod 2 ^ n = (- z) mod 2 ^ n.
Proof. rewrite <- !Z.sub_0_l. apply Zminus_mod_idemp_r. Qed.
Lemma compl_mod_idemp z : (2 ^ n - 1 - z mod 2 ^ n) mod 2 ^ n = (2 ^ n - 1 - z) mod 2 ^ n.
Proof. apply Zminus_mod_idemp_r. Qed.
Ltac law k := apply agree_of; [exact Hn|exact V|sup|sup|]; match goal with |- meaning _ _ ?e = meaning _ _ ?f =>
  apply cong; [apply (mr e); sup|apply (mr f); sup|]; cbn [meaning] end;
  pose proof (pow2_pos n ltac:(lia)); repeat first [rewrite opp_mod_idemp | rewrite compl_mod_idemp | progress push];
  apply (mod_eq_shift _ _ _ k); [assumption|ring].

Lemma laws_additive a b c : ok a -> ok b -> ok c -> Forall (agree n env) (additive_laws a b c).
Proof.
  intros A B C. unfold additive_laws.
  do 5 (apply Forall_cons; [law 0|]).
  apply Forall_cons. { apply agree_of; [exact Hn|exact V|sup|sup|]. cbn [meaning]. rewrite Z.sub_diag, Z.lxor_nilpotent. reflexivity. }
  apply Forall_cons. { law 0. }
  apply Forall_cons. { apply agree_of; [exact Hn|exact V|sup|sup|]. cbn [meaning]. f_equal. symmetry. apply add_lor_land. }
  apply Forall_cons; [|apply Forall_nil]. apply agree_of; [exact Hn|exact V|sup|sup|]. cbn [meaning]. rewrite Z.lxor_nilpotent.
  rewrite Z.mod_small; lia.
Qed.
Lemma laws_negation a b : n <= 64 -> ok a -> ok b -> Forall (agree n env) (negation_laws a b).
Proof.
  intros L A B. unfold negation_laws. do 4 (apply Forall_cons; [law 0|]).
  apply Forall_cons; [|apply Forall_nil]. apply agree_of; [exact Hn|exact V|sup|sup|]. cbn [meaning]. rewrite Z.lxor_nilpotent.
  rewrite Zplus_mod_idemp_r. rewrite Z.add_opp_diag_r. reflexivity.
Qed.
Lemma laws_product a b c : n <= 8 \/ 17 <= n <= 64 -> ok a -> ok b -> ok c -> Forall (agree n env) (product_laws a b c).
Proof.
  intros L A B C. assert (L64 : n <= 64) by lia. unfold product_laws. repeat (apply Forall_cons; [law 0|]). apply Forall_nil.
Qed.

(** * division *)
Lemma law_divide a b : n <= 64 -> ok a -> ok b -> full_width n \/ neat a /\ neat b -> m b <> 0 ->
  agree n env (Add (Mul (Div a b) b) (Rem a b), a) /\
  exists x y, eval env (Rem a b) = Ok x /\ eval env b = Ok y /\ bit_lt x y = Ok true.
Proof.
  intros L A B F Z0. pose proof (mr a A) as Ra. pose proof (mr b B) as Rb. assert (L2 : forall P : Prop, 65 <= n -> P) by (intros; lia).
  assert (SR : ok (Rem a b)) by (unfold ok, m in *; cbn [supported]; repeat (split; [assumption|]); lia).
  assert (SD : ok (Div a b)) by (unfold ok, m in *; cbn [supported]; repeat (split; [assumption|]); lia). split.
  - assert (SM : ok (Mul (Div a b) b)).
    { unfold ok in *. cbn [supported]. split; [exact SD|]. split; [exact B|]. assert (C : n <= 8 \/ 17 <= n <= 64 \/ 9 <= n <= 16) by lia.
      destruct C as [C|[C|C]]; [tauto|tauto|]. right. right. split; [cbn [neat]; tauto|]. left. split; [exact L|]. cbn [meaning].
      fold (m a) (m b). pose proof (Z.mul_div_le (m a) (m b) ltac:(lia)). assert (2 ^ n <= 2 ^ 16) by (apply Z.pow_le_mono_r; lia).
      assert (2 ^ 16 < 2 ^ 31) by reflexivity. lia. }
    apply agree_of; [exact Hn|exact V|split; [exact SM|exact SR]|exact A|]. cbn [meaning].
    rewrite Zplus_mod_idemp_l. unfold m in *. set (x := meaning n _ a) in *. set (y := meaning n _ b) in *. rewrite Z.mul_comm, <- Z.div_mod by exact Z0.
    apply Z.mod_small; assumption.
  - destruct (eq_eval n env (Rem a b) b Hn V SR B) as (x & y & Ex & Ey & _ & Lt & _); [cbn [neat]; tauto|].
    exists x, y. split; [exact Ex|]. split; [exact Ey|]. rewrite Lt. f_equal. cbn [meaning]. fold (m a) (m b). apply Z.ltb_lt, Z.mod_pos_bound. lia.
Qed.

(** * shifts *)
Lemma law_shift a i j k : ok a -> amount n i -> amount n j -> amount n k -> value k = value i + value j ->
  Forall (agree n env) [(Shl (Shl a i) j, Shl a k); (Shr (Shr a i) j, Shr a k); (Shl (Shr (Shl a i) i) i, Shl a i); (Shr (Shl (Shr a i) i) i, Shr a i)].
Proof.
  intros A I J K E. assert (Ui := I). assert (Uj := J). assert (Uk := K). unfold amount in Ui, Uj, Uk. assert (P := pow2_pos (value i) ltac:(lia)). assert (Q := pow2_pos (value j) ltac:(lia)).
  assert (Sp : 2 ^ n = 2 ^ value i * 2 ^ (n - value i)) by (rewrite <- pow2_split by lia; f_equal; lia). pose proof (mr a A) as R. pose proof (pow2_pos (n - value i) ltac:(lia)) as P2.
  repeat (apply Forall_cons; [apply agree_of; [exact Hn|exact V|sup|sup|]; cbn [meaning]; fold (m a)|]); [..|apply Forall_nil].
  - rewrite Z.mul_mod_idemp_l by lia. f_equal. rewrite E, pow2_split by lia. ring.
  - rewrite Z.div_div by lia. rewrite E, pow2_split by lia. reflexivity.
  - rewrite Sp. set (d := 2 ^ value i) in *. set (e := 2 ^ (n - value i)) in *. rewrite (Z.mul_comm (m a) d). rewrite !Z.mul_mod_distr_l by lia.
    rewrite (Z.mul_comm d (m a mod e)). rewrite Z.div_mul by lia. rewrite (Z.mul_comm _ d). rewrite Z.mul_mod_distr_l by lia. f_equal. apply Z.mod_mod. lia.
  - rewrite (Z.mod_small (m a / 2 ^ value i * 2 ^ value i)). { apply Z.div_mul. lia. }
    pose proof (Z.mul_div_le (m a) (2 ^ value i) P). pose proof (Z.div_pos (m a) (2 ^ value i) ltac:(lia) P). nia.
Qed.
End Laws.

(** * counterexamples *)
Definition b4 (v : Z) := bit_of_native 3 0 false v.
Definition b16 (v : Z) := bit_of_native 15 0 false v.
Definition two {A} (a b : A) (k : nat) : A := match k with O => a | _ => b end.
Lemma eq_after_add_counter : exists env, good 4 env /\ exists r s, eval env (Add (Var 0) (Var 0)) = Ok r /\ eval env (Var 1) = Ok s /\
  (forall i, 0 <= i < 4 -> bit_at r i = bit_at s i) /\ bit_eq r s = Ok false.
Proof.
  exists (two (b4 8) (b4 0)). split; [intros [|k]; cbn [two]; repeat split; vm_compute; reflexivity || discriminate || (intro; discriminate)|].
  exists (mkBit 3 0 false (HN 16)), (b4 0). split; [vm_compute; reflexivity|]. split; [reflexivity|]. split; [|vm_compute; reflexivity].
  intros i Hi. assert (D : i = 0 \/ i = 1 \/ i = 2 \/ i = 3) by lia. destruct D as [-> | [-> | [-> | ->]]]; reflexivity.
Qed.
Lemma product_counter : exists env, good 16 env /\ eval env (Mul (Var 0) (Var 0)) = UB.
Proof. exists (fun _ => b16 65535). split; [intros k; repeat split; vm_compute; reflexivity || discriminate || (intro; discriminate)|vm_compute; reflexivity]. Qed.
