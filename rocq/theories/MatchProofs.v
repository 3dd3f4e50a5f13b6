(** match() of vectors of different types. *)
From Coq Require Import ZArith List Bool Lia.
From Verif Require Import Cpp BigNum Bit Logic Spec SpecMachine SpecWide SpecIff ZBits BitProofs BitMain WideProofs WideProofs3 Iff3 Iff5 Iff8 Iff18 CircuitProofs.
Import ListNotations.
Open Scope Z_scope.
Local Ltac Zify.zify_post_hook ::= idtac.

Lemma eq_unsigned a b : vec a -> vec b -> bsgn a = false \/ bsgn b = false -> exists c, bit_eq a b = Ok c.
Proof.
  intros Va Vb S. rewrite eq_any by assumption. unfold any_equal, both_signed. replace (bsgn a && bsgn b) with false by (destruct S as [-> | ->]; [|rewrite andb_false_r]; reflexivity).
  destruct (small a), (small b); cbn [andb]; eauto.
Qed.
(** the two vectors, the shorter one continued by 0, have the same symbols *)
Lemma same_symbols a b : lvec a -> lvec b -> num (l_val a) = num (l_val b) /\ num (l_xz a) = num (l_xz b) <-> forall p, 0 <= p -> sym_at a p = sym_at b p.
Proof.
  intros _ _. split; [intros [E1 E2] p _; unfold sym_at, bit_at; rewrite E1, E2; reflexivity|]. intros H. split; apply Z.bits_inj'; intros p P; specialize (H p P); unfold sym_at, bit_at in H;
  destruct (Z.testbit (num (l_val a)) p), (Z.testbit (num (l_xz a)) p), (Z.testbit (num (l_val b)) p), (Z.testbit (num (l_xz b)) p); cbn in H; congruence.
Qed.
Theorem match_types a b : lvec a -> lvec b -> ltidy a -> ltidy b -> lsgn a = false -> lsgn b = false ->
  exists c, logic_match a b = Ok c /\ ((forall p, 0 <= p -> sym_at a p = sym_at b p) -> c = true) /\
    ((c = true <-> forall p, 0 <= p -> sym_at a p = sym_at b p) <->
     (forall p, 0 <= p -> sym_at a p = sym_at b p) \/ ~ ((num (l_val a) = num (l_val b) \/ confused (l_val a) (l_val b)) /\ (num (l_xz a) = num (l_xz b) \/ confused (l_xz a) (l_xz b)))).
Proof.
  intros La Lb [Tv Tm] [Uv Um] Sa Sb. pose proof La as (Va & Ma & _ & _ & Na). pose proof Lb as (Vb & Mb & _ & _ & Nb). unfold logic_match.
  destruct (eq_unsigned _ _ Va Vb (or_introl Sa)) as (c1 & E1). destruct (eq_unsigned _ _ Ma Mb (or_introl Na)) as (c2 & E2).
  pose proof (eq_iff _ _ Va Vb Tv Uv Sa Sb) as I1. pose proof (eq_iff _ _ Ma Mb Tm Um Na Nb) as I2. rewrite E1 in I1. rewrite E2 in I2. rewrite E1, E2. cbn [bind]. exists (c1 && c2). split; [destruct c1, c2; reflexivity|].
  rewrite <- (same_symbols a b La Lb). destruct (Z.eqb_spec (num (l_val a)) (num (l_val b))) as [Q1|Q1], (Z.eqb_spec (num (l_xz a)) (num (l_xz b))) as [Q2|Q2];
  destruct c1, c2; cbn [andb]; (split; [intros [X1 X2]; try reflexivity; exfalso; intuition congruence|]); split; intuition congruence.
Qed.
(** ** ++ and -- of any vector *)
Lemma one_stored a : vec a -> bw a = 1 -> stored a = 0 \/ stored a = 1.
Proof.
  intros V W. destruct (stored_one a V W) as [E H]. rewrite E. exact H.
Qed.
Lemma step_any_ok d a : vec a -> any_step d a = if (bw a =? 1) || bsgn a || ((blsb a =? 0) && (0 <=? bmsb a)) then Ok (rewritten a (stored a + d)) else IllFormed.
Proof.
  intros V. unfold any_step, stepped, small. destruct (Z.leb_spec (bw a) 64) as [G|G].
  - rewrite <- rewritten_small by exact G. destruct ((bw a =? 1) || bsgn a || ((blsb a =? 0) && (0 <=? bmsb a))); reflexivity.
  - replace (bw a =? 1) with false by lia. reflexivity.
Qed.
Lemma step_num d a : 2 <= bw a -> num (rewritten a (stored a + d)) = (num a + d) mod 2 ^ bw a.
Proof. intros W. unfold rewritten. rewrite object_num by exact W. unfold num. fold (bw a). rewrite Zplus_mod_idemp_l. reflexivity. Qed.
Lemma allowed_iff a : (bsgn a || ((blsb a =? 0) && (0 <=? bmsb a))) = true <-> bsgn a = true \/ blsb a = 0 /\ 0 <= bmsb a.
Proof. rewrite orb_true_iff, andb_true_iff, Z.eqb_eq, Z.leb_le. reflexivity. Qed.
Theorem inc_iff a : vec a -> (exists r, bit_inc a = Ok r /\ num r = (num a + 1) mod 2 ^ bw a) <-> bw a = 1 /\ num a = 0 \/ 2 <= bw a /\ (bsgn a = true \/ blsb a = 0 /\ 0 <= bmsb a).
Proof.
  intros V. pose proof (bw_pos a) as P. rewrite inc_any, step_any_ok by exact V. destruct (Z.eqb_spec (bw a) 1) as [W|W]; cbn [orb].
  - destruct (one_stored a V W) as [S|S]; rewrite W; unfold num at 2 3; rewrite W, S.
    + split; [intros _; left; split; reflexivity|intros _]. eexists. split; [reflexivity|]. unfold rewritten. rewrite object_one by exact W. reflexivity.
    + split; [intros (r & E & N)|intros [[_ N] | [N _]]; [discriminate N|lia]]. injection E as <-. unfold rewritten in N. rewrite object_one in N by exact W. discriminate N.
  - rewrite <- allowed_iff. destruct (bsgn a || ((blsb a =? 0) && (0 <=? bmsb a))).
    + split; [intros _; right; split; [lia|reflexivity]|intros _]. eexists. split; [reflexivity|]. apply step_num. lia.
    + split; [intros (r & E & _); discriminate E|intros [[E _] | [_ E]]; [lia|discriminate E]].
Qed.
Theorem dec_iff a : vec a -> (exists r, bit_dec a = Ok r /\ num r = (num a - 1) mod 2 ^ bw a) <-> bw a = 1 \/ 2 <= bw a /\ (bsgn a = true \/ blsb a = 0 /\ 0 <= bmsb a).
Proof.
  intros V. pose proof (bw_pos a) as P. rewrite dec_any, step_any_ok by exact V. destruct (Z.eqb_spec (bw a) 1) as [W|W]; cbn [orb].
  - split; [intros _; left; exact W|intros _]. eexists. split; [reflexivity|]. unfold rewritten. rewrite object_one by exact W. rewrite W. unfold num. rewrite W.
    destruct (one_stored a V W) as [S|S]; rewrite S; reflexivity.
  - rewrite <- allowed_iff. destruct (bsgn a || ((blsb a =? 0) && (0 <=? bmsb a))).
    + split; [intros _; right; split; [lia|reflexivity]|intros _]. eexists. split; [reflexivity|]. rewrite step_num by lia. reflexivity.
    + split; [intros (r & E & _); discriminate E|intros [E | [_ E]]; [lia|discriminate E]].
Qed.
