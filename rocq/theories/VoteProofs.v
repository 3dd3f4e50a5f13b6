(** Voting and choosing. *)
From Coq Require Import ZArith Bool Lia.
From Verif Require Import Cpp Bit Logic Spec SpecExact4 SpecVote Vote BitExt BitMain LogicProofs LogicMain Program4Proofs.
Open Scope Z_scope.
Local Ltac Zify.zify_post_hook ::= idtac.

Lemma copy2_pos n b : copy2 n b -> 1 <= n.
Proof. intros (_ & <- & _). unfold bw, width. lia. Qed.
Lemma typed_copy2 n b s : 1 <= n -> typed b n s -> copy2 n b.
Proof. intros Hn T. pose proof (typed_bw _ _ _ Hn T) as W. destruct T as (V & (M & L) & _). split; [exact V|]. split; [exact W|]. lia. Qed.
Lemma and2 n a b : copy2 n a -> copy2 n b -> exists r, bit_and a b = Ok r /\ typed r n (bsgn a && bsgn b) /\ forall p, 0 <= p < n -> bit_at r p = bit_at a p && bit_at b p.
Proof. intros (A & A' & _) (B & B' & B''). apply (bitwise_same_all a b n); assumption. Qed.
Lemma or2 n a b : copy2 n a -> copy2 n b -> exists r, bit_or a b = Ok r /\ typed r n (bsgn a && bsgn b) /\ forall p, 0 <= p < n -> bit_at r p = bit_at a p || bit_at b p.
Proof. intros (A & A' & _) (B & B' & B''). apply (bitwise_same_all a b n); assumption. Qed.
Lemma not2 n a : copy2 n a -> typed (bit_not a) n false /\ forall p, 0 <= p < n -> bit_at (bit_not a) p = negb (bit_at a p).
Proof. intros (A & A' & A''). apply (bitwise_same_all a a n); assumption. Qed.

Lemma vote2 n a b c : copy2 n a -> copy2 n b -> copy2 n c -> exists r, vote_bit a b c = Ok r /\ typed r n (bsgn a && bsgn b && bsgn c) /\
  forall p v, 0 <= p < n -> agreed (bit_at a p) (bit_at b p) (bit_at c p) v -> bit_at r p = v.
Proof.
  intros A B C. pose proof (copy2_pos _ _ A) as Hn. unfold vote_bit. destruct (and2 n a b A B) as (x & -> & Tx & Qx). destruct (and2 n b c B C) as (y & -> & Ty & Qy). cbn [bind].
  destruct (or2 n x y (typed_copy2 _ _ _ Hn Tx) (typed_copy2 _ _ _ Hn Ty)) as (u & -> & Tu & Qu). cbn [bind]. destruct (and2 n a c A C) as (z & -> & Tz & Qz). cbn [bind].
  destruct (or2 n u z (typed_copy2 _ _ _ Hn Tu) (typed_copy2 _ _ _ Hn Tz)) as (r & -> & Tr & Qr). exists r. split; [reflexivity|]. split.
  - replace (bsgn a && bsgn b && bsgn c) with (bsgn u && bsgn z); [exact Tr|]. destruct Tu as (_ & _ & ->), Tz as (_ & _ & ->), Tx as (_ & _ & ->), Ty as (_ & _ & ->). destruct (bsgn a), (bsgn b), (bsgn c); reflexivity.
  - intros p v Hp Ag. rewrite Qr, Qu, Qx, Qy, Qz by exact Hp. unfold agreed in Ag. destruct (bit_at a p), (bit_at b p), (bit_at c p), v; cbn; try reflexivity; exfalso; intuition discriminate.
Qed.
Lemma choose2 n s a b : copy2 n s -> copy2 n a -> copy2 n b -> exists r, choose_bit s a b = Ok r /\ bw r = n /\
  forall p, 0 <= p < n -> bit_at r p = if bit_at s p then bit_at a p else bit_at b p.
Proof.
  intros S A B. pose proof (copy2_pos _ _ A) as Hn. unfold choose_bit. destruct (and2 n s a S A) as (x & -> & Tx & Qx). cbn [bind]. destruct (not2 n s S) as [Tn Qn].
  destruct (and2 n (bit_not s) b (typed_copy2 _ _ _ Hn Tn) B) as (y & -> & Ty & Qy). cbn [bind].
  destruct (or2 n x y (typed_copy2 _ _ _ Hn Tx) (typed_copy2 _ _ _ Hn Ty)) as (r & -> & Tr & Qr). exists r. split; [reflexivity|]. split; [exact (typed_bw _ _ _ Hn Tr)|].
  intros p Hp. rewrite Qr, Qx, Qy, Qn by exact Hp. destruct (bit_at s p), (bit_at a p), (bit_at b p); reflexivity.
Qed.

Lemma copy4_pos n l : copy4 n l -> 1 <= n.
Proof. intros (_ & <- & _). unfold lw, bw, width. lia. Qed.
Lemma ltyped_copy4 n l : 1 <= n -> ltyped l n false -> copy4 n l.
Proof. intros Hn T. split; [eapply ltyped_lvec; exact T|]. split; [exact (ltyped_lw _ _ _ Hn T)|]. destruct T as [(_ & (M & L) & S) _]. unfold lmsb, llsb, lsgn. split; [lia|exact S]. Qed.
Lemma and4s n a b : copy4 n a -> copy4 n b -> exists r, logic_and a b = Ok r /\ copy4 n r /\ forall p, 0 <= p < n -> sym_at r p = lib_and (sym_at a p) (sym_at b p).
Proof.
  intros A B. pose proof (copy4_pos _ _ A) as Hn. destruct A as (A1 & A2 & A3 & A4), B as (B1 & B2 & B3 & B4).
  destruct (lib_and_gen a b n A1 B1 A2 B2 A3 B3) as (r & E & T & _ & Q). { rewrite A4. reflexivity. } exists r. split; [exact E|]. split; [now apply ltyped_copy4|exact Q].
Qed.
Lemma or4s n a b : copy4 n a -> copy4 n b -> exists r, logic_or a b = Ok r /\ copy4 n r /\ forall p, 0 <= p < n -> sym_at r p = lib_or (sym_at a p) (sym_at b p).
Proof.
  intros A B. pose proof (copy4_pos _ _ A) as Hn. destruct A as (A1 & A2 & A3 & A4), B as (B1 & B2 & B3 & B4).
  destruct (lib_or_gen a b n A1 B1 A2 B2 A3 B3) as (r & E & T & _ & Q). { rewrite A4. reflexivity. } exists r. split; [exact E|]. split; [now apply ltyped_copy4|exact Q].
Qed.

Lemma vote4 n a b c : copy4 n a -> copy4 n b -> copy4 n c -> exists r, vote a b c = Ok r /\ copy4 n r /\
  forall p v, 0 <= p < n -> unknown v = false -> agreed (sym_at a p) (sym_at b p) (sym_at c p) v ->
    (sym_at r p = v <-> ~ (v = S0 /\ (sym_at a p = SX \/ sym_at b p = SX))).
Proof.
  intros A B C. unfold vote. destruct (and4s n a b A B) as (x & -> & Tx & Qx). destruct (and4s n b c B C) as (y & -> & Ty & Qy). cbn [bind].
  destruct (or4s n x y Tx Ty) as (u & -> & Tu & Qu). cbn [bind]. destruct (and4s n a c A C) as (z & -> & Tz & Qz). cbn [bind].
  destruct (or4s n u z Tu Tz) as (r & -> & Tr & Qr). exists r. split; [reflexivity|]. split; [exact Tr|].
  intros p v Hp K Ag. rewrite Qr, Qu, Qx, Qy, Qz by exact Hp. unfold agreed in Ag. destruct (sym_at a p), (sym_at b p), (sym_at c p), v; try discriminate K; cbn; intuition discriminate.
Qed.
Lemma choose4 n s a b : copy4 n s -> copy4 n a -> copy4 n b -> exists r, choose s a b = Ok r /\ copy4 n r /\
  forall p, 0 <= p < n -> unknown (sym_at s p) = false ->
    let chosen := match sym_at s p with S1 => sym_at a p | _ => sym_at b p end in
    (sym_at r p = (if unknown chosen then SX else chosen) <-> ~ (sym_at s p = S1 /\ unknown (sym_at a p) = true)).
Proof.
  intros S A B. pose proof (copy4_pos _ _ A) as Hn. unfold choose. destruct (and4s n s a S A) as (x & -> & Tx & Qx). cbn [bind].
  destruct (not4_main s n (proj1 S) (proj1 (proj2 S))) as (m & -> & Tm & _ & Qm). cbn [bind].
  destruct (and4s n m b (ltyped_copy4 _ _ Hn Tm) B) as (y & -> & Ty & Qy). cbn [bind]. destruct (or4s n x y Tx Ty) as (r & -> & Tr & Qr). exists r. split; [reflexivity|]. split; [exact Tr|].
  intros p Hp K. cbv zeta. rewrite Qr, Qx, Qy, Qm by exact Hp. destruct (sym_at s p), (sym_at a p), (sym_at b p); try discriminate K; cbn; intuition discriminate.
Qed.
