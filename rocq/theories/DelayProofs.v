(** A delay line over an unpacked array holds the latest values. *)
From Coq Require Import ZArith List Bool Lia.
From Verif Require Import Cpp BigNum Bit Logic Arr Spec ZBits SpecWide FourProofs2 BitMain ArrProofs Crc CircuitProofs.
Import ListNotations.
Open Scope Z_scope.
Local Ltac Zify.zify_post_hook ::= idtac.

Section D.
  Context {T : Type} (assign : T -> T -> outcome T) (dflt : T) (msb lsb : Z) (good : T -> Prop).
  Hypotheses (R : int_ok msb /\ int_ok lsb /\ width msb lsb < 2 ^ 31) (Z0 : Z.min msb lsb = 0) (G : forall x v, good x -> good v -> assign x v = Ok v).
  Let D := width msb lsb.
  Lemma D_range i : in_range msb lsb i <-> 0 <= i < D.
  Proof. unfold D, in_range, width. lia. Qed.
  Lemma get_nth a i : 0 <= i < D -> ua_get dflt msb lsb a i = Ok (nth (Z.to_nat i) a dflt).
  Proof. intros H. rewrite (ua_get_in dflt msb lsb R) by (apply D_range; exact H). rewrite Z0, Z.sub_0_r. reflexivity. Qed.
  Lemma put_nth a i v : Z.of_nat (length a) = D -> 0 <= i < D -> good (nth (Z.to_nat i) a dflt) -> good v ->
    exists r, ua_update assign dflt msb lsb a i v = Ok r /\ length r = length a /\ forall j, 0 <= j < D -> nth (Z.to_nat j) r dflt = if j =? i then v else nth (Z.to_nat j) a dflt.
  Proof.
    intros L H Ga Gv. destruct (ua_write assign dflt msb lsb R a i v v L (proj2 (D_range i) H) H) as (r & E & Lr & Gi & Go); [rewrite Z0, Z.sub_0_r; apply G; assumption|]. exists r. split; [exact E|]. split; [exact Lr|]. intros j J. destruct (Z.eqb_spec j i) as [->|N].
    - rewrite get_nth in Gi by exact H. congruence.
    - specialize (Go j). rewrite !get_nth in Go by exact J. assert (Ok (nth (Z.to_nat j) r dflt) = Ok (nth (Z.to_nat j) a dflt)) as Q; [apply Go; [|exact N]|congruence]. pose proof R. unfold int_ok, D in *. lia.
  Qed.
  Lemma moves a : Z.of_nat (length a) = D -> 1 <= D -> Forall good a ->
    exists b, ofold (delay_move assign dflt msb lsb D) (zrange 0 (D - 1)) a = Ok b /\ length b = length a /\ forall j, 0 <= j < D -> nth (Z.to_nat j) b dflt = if 1 <=? j then nth (Z.to_nat (j - 1)) a dflt else nth (Z.to_nat j) a dflt.
  Proof.
    intros L D1 F. assert (GA : forall j, 0 <= j < D -> good (nth (Z.to_nat j) a dflt)) by (intros j J; rewrite Forall_forall in F; apply F, nth_In; lia).
    destruct (zrange_ofold_ind (delay_move assign dflt msb lsb D) (fun k b => length b = length a /\ forall j, 0 <= j < D -> nth (Z.to_nat j) b dflt = if D - k <=? j then nth (Z.to_nat (j - 1)) a dflt else nth (Z.to_nat j) a dflt) 0 (D - 1) a) as (b & E & Lb & B).
    - lia.
    - split; [reflexivity|]. intros j J. replace (D - 0 <=? j) with false by lia. reflexivity.
    - intros k b K (Lb & B). unfold delay_move. rewrite get_nth by lia. cbn [bind]. rewrite (B (D - 2 - k)) by lia. replace (D - k <=? D - 2 - k) with false by lia.
      destruct (put_nth b (D - 1 - k) (nth (Z.to_nat (D - 2 - k)) a dflt)) as (r & E & Lr & P); [lia|lia|rewrite B by lia; replace (D - k <=? D - 1 - k) with false by lia; apply GA; lia|apply GA; lia|].
      exists r. split; [exact E|]. split; [congruence|]. intros j J. rewrite P by exact J. destruct (Z.eqb_spec j (D - 1 - k)) as [->|N].
      + replace (D - (k + 1) <=? D - 1 - k) with true by lia. f_equal. f_equal. lia.
      + rewrite B by exact J. destruct (D - k <=? j) eqn:X, (D - (k + 1) <=? j) eqn:Y; try reflexivity; lia.
    - exists b. split; [exact E|]. split; [exact Lb|]. intros j J. rewrite B by exact J. replace (D - (D - 1)) with 1 by lia. reflexivity.
  Qed.
  Lemma push a v : Z.of_nat (length a) = D -> Forall good a -> good v ->
    exists r, delay_push assign dflt msb lsb D a v = Ok r /\ length r = length a /\ forall j, 0 <= j < D -> nth (Z.to_nat j) r dflt = nth (Z.to_nat j) (v :: a) dflt.
  Proof.
    intros L F Gv. assert (D1 : 1 <= D) by (unfold D, width; lia). destruct (moves a L D1 F) as (b & E & Lb & B). unfold delay_push. rewrite E. cbn [bind].
    destruct (put_nth b 0 v) as (r & Er & Lr & P); [lia|lia| |exact Gv|]. { rewrite B by lia. cbn [Z.leb Z.compare]. rewrite Forall_forall in F. apply F, nth_In. lia. }
    exists r. split; [exact Er|]. split; [congruence|]. intros j J. rewrite P by exact J. destruct (Z.eqb_spec j 0) as [->|N]; [reflexivity|]. rewrite B by exact J. replace (1 <=? j) with true by lia. replace (Z.to_nat j) with (S (Z.to_nat (j - 1))) by lia. reflexivity.
  Qed.
  Theorem delay_line vs : forall a, Z.of_nat (length a) = D -> Forall good a -> Forall good vs ->
    exists r, ofold (delay_push assign dflt msb lsb D) vs a = Ok r /\ length r = length a /\ forall i, 0 <= i < D -> ua_get dflt msb lsb r i = Ok (nth (Z.to_nat i) (rev vs ++ a) dflt).
  Proof.
    induction vs as [|v vs IH]; intros a L F FV.
    - exists a. split; [reflexivity|]. split; [reflexivity|]. intros i I. rewrite get_nth by exact I. reflexivity.
    - inversion FV as [|? ? Gv FV']; subst. destruct (push a v L F Gv) as (r & E & Lr & P). assert (Fr : Forall good r). { apply Forall_forall. intros x X. apply (In_nth _ _ dflt) in X as (k & K & <-). specialize (P (Z.of_nat k) ltac:(lia)). rewrite Nat2Z.id in P. rewrite P. destruct k as [|k]; [exact Gv|]. cbn [nth]. rewrite Forall_forall in F. apply F, nth_In. lia. }
      destruct (IH r ltac:(lia) Fr FV') as (r' & E' & Lr' & P'). exists r'. cbn [ofold]. rewrite E. cbn [bind]. split; [exact E'|]. split; [congruence|]. intros i I. rewrite P' by exact I. cbn [rev]. rewrite <- app_assoc. f_equal. cbn [app].
      destruct (Nat.lt_ge_cases (Z.to_nat i) (length (rev vs))) as [C|C]; [rewrite !app_nth1 by exact C; reflexivity|]. rewrite !app_nth2 by exact C. replace (Z.to_nat i - length (rev vs))%nat with (Z.to_nat (i - Z.of_nat (length (rev vs)))) by lia. apply P. lia.
  Qed.
End D.
Lemma assign_copy n s d a : 1 <= n -> typed d n s -> typed a n s -> bit_assign d a = Ok a.
Proof.
  intros N Dd A. rewrite assign_same; [|apply Dd|apply A|rewrite (typed_bw d n s N Dd), (typed_bw a n s N A); reflexivity]. f_equal. unfold rewritten. destruct Dd as (_ & (-> & ->) & ->). destruct A as (V & (M & L) & S). rewrite <- M, <- L, <- S. apply (stored_object_vec a V).
Qed.
Lemma assign_copy4 n s d a : 1 <= n -> ltyped d n s -> ltyped a n s -> logic_assign d a = Ok a.
Proof. intros N [D1 D2] [A1 A2]. unfold logic_assign. rewrite (assign_copy n s) by assumption. rewrite (assign_copy n false) by assumption. cbn [bind]. destruct a. reflexivity. Qed.
Theorem delay_line_bits n s msb lsb : 1 <= n -> int_ok msb /\ int_ok lsb /\ width msb lsb < 2 ^ 31 -> Z.min msb lsb = 0 -> forall dflt a vs, Z.of_nat (length a) = width msb lsb -> Forall (fun x => typed x n s) a -> Forall (fun x => typed x n s) vs ->
  exists r, ofold (delay_push bit_assign dflt msb lsb (width msb lsb)) vs a = Ok r /\ length r = length a /\ forall i, 0 <= i < width msb lsb -> ua_get dflt msb lsb r i = Ok (nth (Z.to_nat i) (rev vs ++ a) dflt).
Proof. intros N R Z0 dflt a vs L F FV. apply (delay_line bit_assign dflt msb lsb (fun x => typed x n s) R Z0); auto. intros x v X V. apply (assign_copy n s); assumption. Qed.
Theorem delay_line_logic n s msb lsb : 1 <= n -> int_ok msb /\ int_ok lsb /\ width msb lsb < 2 ^ 31 -> Z.min msb lsb = 0 -> forall dflt a vs, Z.of_nat (length a) = width msb lsb -> Forall (fun x => ltyped x n s) a -> Forall (fun x => ltyped x n s) vs ->
  exists r, ofold (delay_push logic_assign dflt msb lsb (width msb lsb)) vs a = Ok r /\ length r = length a /\ forall i, 0 <= i < width msb lsb -> ua_get dflt msb lsb r i = Ok (nth (Z.to_nat i) (rev vs ++ a) dflt).
Proof. intros N R Z0 dflt a vs L F FV. apply (delay_line logic_assign dflt msb lsb (fun x => ltyped x n s) R Z0); auto. intros x v X V. apply (assign_copy4 n s); assumption. Qed.
