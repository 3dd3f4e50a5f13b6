(** Expressions over [bit] and over [logic] without x and z. *)
From Coq Require Import ZArith List Bool Lia.
From Verif Require Import Cpp ZBits BigNum Bit Logic Spec SpecExact SpecExact4 SpecMachine SpecWide Client Client4 Program Program4 SpecFour SpecProg SpecProg4 SpecBoth BitOps BitProofs BitMain WideProofs WideProofs2 WideProofs3 FourProofs FourProofs2 FourProofs3 LogicArith LogicArith2 Iff3 Iff25 ProgExact ProgExact4 ChangeProofs.
Import ListNotations.
Open Scope Z_scope.
Local Ltac Zify.zify_post_hook ::= idtac.

Lemma lifted_amounts e : amounts vec e -> amounts4 lvec (to4 e).
Proof.
  assert (K : forall k, vec k -> lvec (certain k)). { intros k V. split; [exact V|]. split; [apply object_vec; apply V|]. repeat split. }
  induction e; cbn [amounts amounts4 to4]; intros A; try exact I; auto; destruct A; split; auto.
Qed.
Lemma room_full n : full_width n -> 2 <= n /\ room n = n.
Proof.
  intros [-> | [-> | [-> | [-> | [H M]]]]]; try (split; [lia|reflexivity]). split; [lia|]. unfold room, capacity, words_in. replace (n <=? 64) with false by lia.
  pose proof (Z.div_mod n 64 ltac:(lia)) as D. rewrite M in D. replace ((n + 63) / 64) with (n / 64); [lia|]. replace n with (n / 64 * 64) at 2 by lia.
  rewrite Z.div_add_l by lia. replace (63 / 64) with 0 by reflexivity. lia.
Qed.

Section Full.
Variables (n : Z) (d : bool).
Hypothesis (F : full_width n) (Hn : n < 2 ^ 31) (D : d = true -> n <= 64).
Let R : room n = n. Proof. apply room_full, F. Qed.
Let N2 : 2 <= n < 2 ^ 31. Proof. split; [apply room_full, F|exact Hn]. Qed.
Let ok z := 0 <= z < 2 ^ n.
Definition sure (z : Z) : cell := (z, 0).
Definition agrees (r : outcome Z) (s : outcome cell) : Prop := match r with Ok z => s = Ok (sure z) | _ => d = true \/ s = omap sure r end.
Lemma agrees_bind r s f g : agrees r s -> (forall z, r = Ok z -> agrees (f z) (g (sure z))) -> agrees (bind r f) (bind s g).
Proof.
  unfold agrees at 1. destruct r as [z| | | |]; intros A B; cbn [bind]; [rewrite A; cbn [bind]; now apply B|..]; (destruct A as [A | ->]; [now left|right; reflexivity]).
Qed.
Lemma agrees_same r : agrees r (omap sure r).
Proof. unfold agrees. destruct r; try reflexivity; now right. Qed.
Lemma noticed0 : noticed n 0 = false.
Proof. unfold noticed, seems_zero, words_of. rewrite words_zero. destruct (_ <=? _); reflexivity. Qed.
Lemma strict_same r : strict n (noticed n 0 || noticed n 0) r = omap sure r.
Proof. rewrite noticed0. reflexivity. Qed.
Lemma sure_symbol z p : symbol (sure z) p = sym_of_bool (Z.testbit z p).
Proof. unfold symbol, sure. cbn [fst snd]. rewrite Z.bits_0. destruct (Z.testbit z p); reflexivity. Qed.
Lemma sure_table t f x y z : (forall a b, t (sym_of_bool a) (sym_of_bool b) = sym_of_bool (f a b)) -> ok z -> (forall p, 0 <= p -> Z.testbit z p = f (Z.testbit x p) (Z.testbit y p)) ->
  of_symbols n (fun p => t (symbol (sure x) p) (symbol (sure y) p)) = sure z.
Proof.
  intros T O B. unfold of_symbols. change (sure z) with (z, 0). f_equal.
  - apply (ProgExact4.gather_is n N2); [exact O|]. intros p Hp. rewrite !sure_symbol, T, B by lia. destruct (f _ _); reflexivity.
  - apply (ProgExact4.gather_is n N2); [unfold ok in O; lia|]. intros p Hp. rewrite !sure_symbol, T, Z.bits_0. destruct (f _ _); reflexivity.
Qed.
Lemma division_true x y (h : Z * Z -> Z) : d = true -> agrees (omap h (kept_division n x y)) (strict n (noticed n 0 || noticed n 0 || negb (noticed n y)) (omap h (kept_division n x y))).
Proof.
  intros Dd. unfold kept_division, noticed, seems_zero. replace (n <=? 64) with true by (specialize (D Dd); lia). cbn [Z.eqb negb orb]. destruct (y =? 0); cbn [negb].
  - now left.
  - apply agrees_same.
Qed.
Lemma shift_sure f x k : f 0 k = omap (fun _ => 0) (f x k) -> shifted n f (sure x) (certain k) = omap sure (f x k).
Proof.
  intros E. unfold shifted, sure. cbn [fst snd]. rewrite noticed0, ChangeProofs.sure. cbn [orb]. unfold certain. cbn [l_val]. rewrite E. destruct (f x k); reflexivity.
Qed.
Lemma left_sure x k : kept_left n 0 k = omap (fun _ => 0) (kept_left n x k).
Proof. unfold kept_left. destruct (n <=? 64); [|rewrite Z.mul_0_l, Z.mod_0_l by (pose proof (pow2_pos n ltac:(lia)); lia); reflexivity].
  destruct (negb _); [reflexivity|]. destruct (_ <? _); [|reflexivity]. rewrite Z.mul_0_l. rewrite Z.mod_0_l by (pose proof (pow2_pos (room n) ltac:(lia)); lia). reflexivity. Qed.
Lemma right_sure x k : kept_right n 0 k = omap (fun _ => 0) (kept_right n x k).
Proof.
  unfold kept_right. destruct (n <=? 64).
  - destruct (negb _); [reflexivity|]. destruct (_ && _) eqn:E; [|reflexivity]. cbn [omap bind]. rewrite andb_true_iff, Z.leb_le, Z.ltb_lt in E. rewrite Z.div_0_l by (pose proof (pow2_pos (stored k) ltac:(lia)); lia).
    rewrite Z.mod_0_l by (pose proof (pow2_pos (n - stored k) ltac:(lia)); lia). reflexivity.
  - cbn [omap bind]. rewrite Z.mod_0_l by (pose proof (pow2_pos n ltac:(lia)); lia). destruct (2 ^ any_amount k); reflexivity.
Qed.

Lemma both_kept e : amounts vec e -> d = true \/ undivided e -> forall st, (forall k, ok (st k)) -> agrees (kept n st e) (kept4 n (fun k => sure (st k)) (to4 e)).
Proof.
  intros A U st S. assert (RG : forall e, amounts vec e -> forall z, kept n st e = Ok z -> ok z).
  { intros g Ag z E. pose proof (kept_expression n (fun k => vec_of n false (st k)) st g N2 Ag) as [_ K]; [intros k; split; [rewrite R; apply S|reflexivity]|]. specialize (K z E). now rewrite R in K. }
  induction e; cbn [amounts undivided to4 kept kept4] in *.
  - reflexivity.
  - apply agrees_bind; [now apply IHe|]. intros z Ez. apply (RG e A) in Ez. cbn [agrees]. unfold sure. cbn [fst snd]. rewrite R, Z.lor_0_r. do 2 f_equal.
    rewrite (Z.sub_nocarry_ldiff (2 ^ n - 1) z).
    + reflexivity.
    + apply Z.bits_inj'. intros p Hp. rewrite Z.ldiff_spec, Z.bits_0. destruct (Z_lt_dec p n).
      * replace (2 ^ n - 1) with (Z.ones n) by (rewrite Z.ones_equiv; lia). rewrite Z.ones_spec_low by lia. apply andb_false_r.
      * rewrite <- (Z.mod_small z (2 ^ n)) by exact Ez. rewrite Z.mod_pow2_bits_high by lia. reflexivity.
  - apply agrees_bind; [now apply IHe|]. intros z Ez. cbn [sure fst snd]. destruct (n <=? 64); [|apply agrees_same]. rewrite noticed0. apply agrees_same.
  - apply agrees_bind; [apply IHe1; tauto|]. intros x Ex. apply agrees_bind; [apply IHe2; tauto|]. intros y Ey. apply RG in Ex; [|tauto]. apply RG in Ey; [|tauto]. cbn [agrees]. f_equal.
    assert (O : ok (Z.land x y)). { pose proof (ok_land n N2 x y) as O. rewrite R in O. now apply O. }
    assert (E : (if n <=? 64 then Z.land x y else Z.land x y mod 2 ^ n) = Z.land x y). { destruct (n <=? 64); [reflexivity|]. now apply Z.mod_small. }
    rewrite E. apply (sure_table lib_and andb); [intros [] []; reflexivity|exact O|]. intros p Hp. apply Z.land_spec.
  - apply agrees_bind; [apply IHe1; tauto|]. intros x Ex. apply agrees_bind; [apply IHe2; tauto|]. intros y Ey. apply RG in Ex; [|tauto]. apply RG in Ey; [|tauto]. cbn [agrees]. f_equal.
    assert (O : ok (Z.lor x y)). { pose proof (ok_lor n N2 x y) as O. rewrite R in O. now apply O. }
    apply (sure_table lib_or orb); [intros [] []; reflexivity|exact O|]. intros p Hp. apply Z.lor_spec.
  - apply agrees_bind; [apply IHe1; tauto|]. intros x Ex. apply agrees_bind; [apply IHe2; tauto|]. intros y Ey. apply RG in Ex; [|tauto]. apply RG in Ey; [|tauto]. cbn [agrees]. f_equal.
    assert (O : ok (Z.lxor x y)). { pose proof (ok_lxor n N2 x y) as O. rewrite R in O. now apply O. }
    unfold sure. cbn [fst snd]. rewrite Z.lor_0_r, Z.mod_small by exact O. now rewrite Z.ldiff_0_r.
  - apply agrees_bind; [apply IHe1; tauto|]. intros x Ex. apply agrees_bind; [apply IHe2; tauto|]. intros y Ey. cbn [sure fst snd]. rewrite strict_same. apply agrees_same.
  - apply agrees_bind; [apply IHe1; tauto|]. intros x Ex. apply agrees_bind; [apply IHe2; tauto|]. intros y Ey. cbn [sure fst snd]. rewrite strict_same. apply agrees_same.
  - apply agrees_bind; [apply IHe1; tauto|]. intros x Ex. apply agrees_bind; [apply IHe2; tauto|]. intros y Ey. cbn [sure fst snd]. rewrite strict_same. apply agrees_same.
  - apply agrees_bind; [apply IHe1; tauto|]. intros x Ex. apply agrees_bind; [apply IHe2; tauto|]. intros y Ey. cbn [sure fst snd]. apply division_true. tauto.
  - apply agrees_bind; [apply IHe1; tauto|]. intros x Ex. apply agrees_bind; [apply IHe2; tauto|]. intros y Ey. cbn [sure fst snd]. apply division_true. tauto.
  - apply agrees_bind; [apply IHe; tauto|]. intros x Ex. rewrite shift_sure by apply left_sure. apply agrees_same.
  - apply agrees_bind; [apply IHe; tauto|]. intros x Ex. rewrite shift_sure by apply right_sure. apply agrees_same.
Qed.
Lemma both_eval e : amounts vec e -> d = true \/ undivided e -> forall env, (forall k, typed (env k) n false) ->
  match eval env e with
  | Ok v => eval4 (fun k => certain (env k)) (to4 e) = Ok (certain v)
  | o => d = true \/ eval4 (fun k => certain (env k)) (to4 e) = omap certain o
  end.
Proof.
  intros A U env G. set (st := fun k => stored (env k)). assert (S : forall k, 0 <= st k < 2 ^ room n /\ env k = vec_of n false (st k)) by (intros k; apply kept_state; auto).
  destruct (kept_expression n env st e N2 A S) as [-> _].
  destruct (kept4_expression n (fun k => certain (env k)) (fun k => sure (st k)) (to4 e) N2 (lifted_amounts e A)) as [-> _].
  { intros k. destruct (S k) as [S1 S2]. split; [split; cbn [sure fst snd]; [exact S1|rewrite R; pose proof (pow2_pos n ltac:(lia)); lia]|]. rewrite S2. reflexivity. }
  assert (B : agrees (kept n st e) (kept4 n (fun k => sure (st k)) (to4 e))) by (apply both_kept; auto; intros k; destruct (S k) as [Q _]; rewrite R in Q; exact Q).
  unfold agrees in B. destruct (kept n st e) as [z| | | |]; cbn [omap bind] in *; [rewrite B; reflexivity|..]; (destruct B as [B| ->]; [now left|now right]).
Qed.
End Full.
Lemma both_widths n : 2 <= n <= 64 -> (forall env e v, (forall k, typed (env k) n false /\ tidy (env k)) -> amounts vec e -> eval env e = Ok v ->
  exists r, eval4 (fun k => certain (env k)) (to4 e) = Ok r /\ known r /\ num (l_val r) = num v) <-> (n = 8 \/ n = 16 \/ n = 32 \/ n = 64).
Proof.
  intros Hn. split.
  - intros P. destruct (Z.eq_dec (room n) n) as [E|E].
    { unfold room, storage in E. replace (n <=? 64) with true in E by lia. destruct (n <=? 8); [lia|]. destruct (n <=? 16); [lia|]. destruct (n <=? 32); lia. }
    exfalso. assert (RG : n < room n /\ room n <= 64).
    { unfold room, storage in *. replace (n <=? 64) with true in * by lia. destruct (n <=? 8) eqn:?; [lia|]. destruct (n <=? 16) eqn:?; [lia|]. destruct (n <=? 32) eqn:?; lia. }
    set (st := fun k : nat => match k with O => 0 | _ => 2 end).
    assert (N2 : 2 <= n < 2 ^ 31) by lia. assert (P2 : 2 < 2 ^ n) by (pose proof (Z.pow_le_mono_r 2 2 n ltac:(lia) ltac:(lia)); change (2 ^ 2) with 4 in *; lia).
    pose proof (Z.pow_lt_mono_r 2 n (room n) ltac:(lia) ltac:(lia) ltac:(lia)) as PR.
    assert (Q : forall k, 0 <= st k < 2 ^ n) by (intros [|k]; unfold st; lia).
    destruct (P (fun k => vec_of n false (st k)) (Div (Not (Var 0)) (Var 1)) (vec_of n false ((2 ^ room n - 1) / 2))) as (r & Er & K & Nr).
    + intros k. split; [apply vec_of_typed; lia|]. apply (BitExt.tidy_u_iff _ n); [lia|apply vec_of_typed; lia|]. rewrite kept_stored by lia. rewrite Z.mod_small; [apply Q|]. specialize (Q k). lia.
    + cbn. tauto.
    + destruct (kept_expression n (fun k => vec_of n false (st k)) st (Div (Not (Var 0)) (Var 1)) N2) as [-> _]; [cbn; tauto|intros k; split; [specialize (Q k); lia|reflexivity]|].
      cbn [kept bind st]. unfold kept_division. replace (n <=? 64) with true by lia. cbn [Z.eqb omap bind fst]. rewrite Z.sub_0_r. reflexivity.
    + destruct (kept4_expression n (fun k => certain (vec_of n false (st k))) (fun k => (st k, 0)) (to4 (Div (Not (Var 0)) (Var 1))) N2) as [E4 _]; [cbn; tauto|intros k; split; [split; cbn [fst snd]; [specialize (Q k); lia|lia]|reflexivity]|].
      rewrite E4 in Er. cbn [kept4 to4 bind st fst snd] in Er. unfold kept_division, noticed in Er. replace (n <=? 64) with true in Er by lia. cbn [Z.eqb negb orb strict omap bind fst snd] in Er.
      change (Z.lor 0 0) with 0 in Er. rewrite Z.ldiff_0_r in Er. injection Er as <-. cbn [l_val holding fst] in Nr. rewrite !vec_of_num in Nr by lia.
      assert (T : Z.testbit (((2 ^ n - 1) / 2) mod 2 ^ n) (n - 1) = Z.testbit (((2 ^ room n - 1) / 2) mod 2 ^ n) (n - 1)) by now rewrite Nr.
      rewrite !Z.mod_pow2_bits_low in T by lia. rewrite <- !(Z.div2_div) in T. rewrite !Z.div2_spec, !Z.shiftr_spec in T by lia.
      replace (2 ^ n - 1) with (Z.ones n) in T by (rewrite Z.ones_equiv; lia). replace (2 ^ room n - 1) with (Z.ones (room n)) in T by (rewrite Z.ones_equiv; lia).
      rewrite Z.ones_spec_high, Z.ones_spec_low in T by lia. discriminate.
  - intros F env e v G A E. assert (FW : full_width n) by (unfold full_width; tauto).
    pose proof (both_eval n true FW ltac:(lia) ltac:(lia) e A (or_introl eq_refl) env (fun k => proj1 (G k))) as B. rewrite E in B. exists (certain v). split; [exact B|]. split; [|reflexivity].
    apply known_of_num0. unfold certain. cbn [l_xz]. apply object_num0.
Qed.
Lemma both_undivided n env e : full_width n -> n < 2 ^ 31 -> (forall k, typed (env k) n false) -> amounts vec e -> undivided e ->
  eval4 (fun k => certain (env k)) (to4 e) = omap certain (eval env e).
Proof.
  intros F Hn G A U. pose proof (both_eval n false F Hn ltac:(discriminate) e A (or_intror U) env G) as B. destruct (eval env e); [exact B|..]; (destruct B as [B|B]; [discriminate|exact B]).
Qed.
