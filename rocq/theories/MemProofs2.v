(** Sequences of array writes with run-time indices in any order. *)
From Coq Require Import ZArith List Bool Lia Zify ZifyBool.
From Verif Require Import Cpp BigNum Bit Logic Arr Spec SpecArr SpecExact SpecMachine SpecWide SpecFour SpecArrRef SpecIff3 ZBits BitProofs BitMain LogicMain ArrProofs ArrRef ArrRef2 ArrRef3.
From Verif Require Import SpecMem MemProofs.
Import ListNotations.
Open Scope Z_scope.
Local Ltac Zify.zify_post_hook ::= idtac.

Definition step4_spec (t : parr_ty) (i j p : Z) (v : logic) (old : sym) : sym :=
  if negb (reached t i) then old else if i =? j then sym_at v p else if (i + 1 =? j) && (p =? 0) then S0 else old.
Lemma write4_step t a op i v sv : arr4 t a -> index op i -> (lw op = 1 -> lsgn op = false) -> element t i -> ltyped v (pa_base t) sv ->
  (pa_update t a op v = UB /\ reached t i = true /\ undefined_write4 t v i) \/
  (~ (reached t i = true /\ undefined_write4 t v i) /\ exists r, pa_update t a op v = Ok r /\ arr4 t r /\
     forall j p, element t j -> 0 <= p < pa_base t -> sym_at r (start t j + p) = step4_spec t i j p v (sym_at a (start t j + p))).
Proof.
  intros A Ix O El Tv. destruct (arr4_facts t a A) as (Hb & Hn & La & T). destruct (base_bits t i Hb El) as (B1 & B2 & B3). rewrite (update4_given t a op v i A Ix O). unfold step4_spec. change (reached t i) with ((0 <=? i) && (i <? bits t)).
  destruct ((0 <=? i) && (i <? bits t)) eqn:Ei.
  2:{ right. split; [intros [X _]; discriminate|]. exists a. split; [reflexivity|]. split; [exact A|]. reflexivity. }
  assert (Hi : 0 <= i < bits t) by lia. assert (Ad := element_addressable t i Hb ltac:(lia) El). rewrite Ad. destruct (addressable_ints t i Ad) as [I1 I2].
  destruct (update4_all a (bits t) (pa_sgn t) v (pa_base t) sv (start t i) (pa_base t) ltac:(lia) Hb T Tv ltac:(lia) I1 I2) as [[Bd E]|[Gd (r & E & Tr & Q1 & Q2)]]; rewrite E.
  - left. apply (bad4_iff t v i Hb) in Bd. auto.
  - right. split. { intros [_ U]. apply (bad4_iff t v i Hb) in U. destruct U as (j & Hj & U). rewrite Gd in U by exact Hj. discriminate. }
    exists r. split; [reflexivity|]. split; [split; [exact Hb|exact Tr]|]. intros j p Ej Hp. cbn [negb].
    destruct (Z.eq_dec (bits t) 1) as [One|N1].
    + destruct (one_bits t Hb One) as [O1 O2]. rewrite O1 in *. assert (St : start t i = 0) by lia. destruct (base_bits t j ltac:(lia) Ej) as (C1 & C2 & C3). assert (Sj : start t j = 0) by lia.
      assert (i = j) as <- by (unfold start in *; nia). rewrite Z.eqb_refl. rewrite St in *. assert (p = 0) as -> by lia. apply Q2; auto.
    + destruct (base_bits t j Hb Ej) as (C1 & C2 & C3). rewrite (Q1 ltac:(lia)) by lia. destruct (Z.eqb_spec i j) as [->|Ne].
      * replace ((start t j <=? start t j + p) && (start t j + p <=? start t j + pa_base t)) with true by lia. unfold filled. replace (start t j + p - start t j) with p by lia. replace (p <? pa_base t) with true by lia. reflexivity.
      * destruct ((i + 1 =? j) && (p =? 0)) eqn:N.
        -- assert (i + 1 = j /\ p = 0) as [<- ->] by lia. rewrite next_start. replace ((start t i <=? start t i + pa_base t + 0) && (start t i + pa_base t + 0 <=? start t i + pa_base t)) with true by lia.
           unfold filled. replace (start t i + pa_base t + 0 - start t i <? pa_base t) with false by lia. reflexivity.
        -- destruct ((start t i <=? start t j + p) && (start t j + p <=? start t i + pa_base t)) eqn:C; [|reflexivity]. exfalso. assert (D : i < j \/ j < i) by lia. unfold start in C. nia.
Qed.
Lemma run4 t ws : Forall (fun w => index (fst (snd w)) (fst w) /\ (lw (fst (snd w)) = 1 -> lsgn (fst (snd w)) = false) /\ element t (fst w) /\ ltyped (snd (snd w)) (pa_base t) (lsgn (snd (snd w)))) ws ->
  forall a, arr4 t a ->
  (write_at t (map snd ws) a = UB /\ Exists (fun w => reached t (fst w) = true /\ undefined_write4 t (snd (snd w)) (fst w)) ws) \/
  (~ Exists (fun w => reached t (fst w) = true /\ undefined_write4 t (snd (snd w)) (fst w)) ws /\ exists r, write_at t (map snd ws) a = Ok r /\ arr4 t r /\
     forall j p, element t j -> 0 <= p < pa_base t -> sym_at r (start t j + p) = after4 t ws j p (sym_at a (start t j + p))).
Proof.
  unfold write_at. induction 1 as [|[i [op v]] ws (Ix & O & El & Tv) _ IH]; intros a A.
  - right. split; [intros X; inversion X|]. exists a. split; [reflexivity|]. split; [exact A|]. reflexivity.
  - cbn [fst snd map ofold] in *. destruct (write4_step t a op i v _ A Ix O El Tv) as [(E & U)|(NU & a' & E & A' & Q)]; rewrite E; cbn [bind].
    + left. split; [reflexivity|]. apply Exists_cons_hd. exact U.
    + destruct (IH a' A') as [(E' & U)|(NU' & r & E' & Ar & R)].
      * left. split; [exact E'|]. now apply Exists_cons_tl.
      * right. split; [intros X; inversion X; subst; [apply NU; assumption|apply NU'; assumption]|]. exists r. split; [exact E'|]. split; [exact Ar|].
        intros j p Ej Hp. rewrite R by assumption. rewrite Q by assumption. reflexivity.
Qed.

Definition step2_spec (t : parr_ty) (i j p : Z) (v : bit) (old : bool) : bool :=
  if negb (reached t i) then old else if i =? j then bit_at v p else if (i + 1 =? j) && (p =? 0) then (2 <=? pa_base t) && (pa_base t <=? 64) && (value v <? 0) else old.
Lemma write2_step t a op i v sv : arr2 t a -> index op i -> (lw op = 1 -> lsgn op = false) -> element t i -> typed v (pa_base t) sv -> tidy v ->
  (pa_update_bit t a op v = UB /\ reached t i = true /\ undefined_write2 t i) \/
  (~ (reached t i = true /\ undefined_write2 t i) /\ exists r, pa_update_bit t a op v = Ok r /\ arr2 t r /\
     forall j p, element t j -> 0 <= p < pa_base t -> bit_at r (start t j + p) = step2_spec t i j p v (bit_at a (start t j + p))).
Proof.
  intros A Ix O El Tv D. destruct (arr2_facts t a A) as (Hb & Hn & La & T). destruct (base_bits t i Hb El) as (B1 & B2 & B3). rewrite (update2_given t a op v i A Ix O). unfold step2_spec. change (reached t i) with ((0 <=? i) && (i <? bits t)).
  destruct ((0 <=? i) && (i <? bits t)) eqn:Ei.
  2:{ right. split; [intros [X _]; discriminate|]. exists a. split; [reflexivity|]. split; [exact A|]. reflexivity. }
  assert (Hi : 0 <= i < bits t) by lia. assert (Ad := element_addressable t i Hb ltac:(lia) El). rewrite Ad. destruct (addressable_ints t i Ad) as [I1 I2].
  destruct (update2_all a (bits t) (pa_sgn t) v (pa_base t) sv (start t i) ltac:(lia) Hb T Tv D I1 I2) as [[Bd E]|[Gd (r & E & Tr & Q1 & Q2)]]; rewrite E.
  - left. apply (bad2_iff t i Hb) in Bd. auto.
  - right. split. { intros [_ U]. apply (bad2_iff t i Hb) in U. destruct U as (j & Hj & U). rewrite Gd in U by exact Hj. discriminate. }
    exists r. split; [reflexivity|]. split; [split; [exact Hb|exact Tr]|]. intros j p Ej Hp. cbn [negb].
    destruct (Z.eq_dec (bits t) 1) as [One|N1].
    + destruct (one_bits t Hb One) as [O1 O2]. rewrite O1 in *. assert (St : start t i = 0) by lia. destruct (base_bits t j ltac:(lia) Ej) as (C1 & C2 & C3). assert (Sj : start t j = 0) by lia.
      assert (i = j) as <- by (unfold start in *; nia). rewrite Z.eqb_refl. rewrite St in *. assert (p = 0) as -> by lia. apply Q2; auto.
    + destruct (base_bits t j Hb Ej) as (C1 & C2 & C3). rewrite (Q1 ltac:(lia)) by lia. destruct (Z.eqb_spec i j) as [->|Ne].
      * replace ((start t j <=? start t j + p) && (start t j + p <=? start t j + pa_base t)) with true by lia. unfold filled2. replace (start t j + p - start t j) with p by lia. replace (p <? pa_base t) with true by lia. reflexivity.
      * destruct ((i + 1 =? j) && (p =? 0)) eqn:N.
        -- assert (i + 1 = j /\ p = 0) as [<- ->] by lia. rewrite next_start. replace ((start t i <=? start t i + pa_base t + 0) && (start t i + pa_base t + 0 <=? start t i + pa_base t)) with true by lia.
           unfold filled2. replace (start t i + pa_base t + 0 - start t i <? pa_base t) with false by lia. reflexivity.
        -- destruct ((start t i <=? start t j + p) && (start t j + p <=? start t i + pa_base t)) eqn:C; [|reflexivity]. exfalso. assert (F : i < j \/ j < i) by lia. unfold start in C. nia.
Qed.
Lemma run2 t ws : Forall (fun w => index (fst (snd w)) (fst w) /\ (lw (fst (snd w)) = 1 -> lsgn (fst (snd w)) = false) /\ element t (fst w) /\ typed (snd (snd w)) (pa_base t) (bsgn (snd (snd w))) /\ tidy (snd (snd w))) ws ->
  forall a, arr2 t a ->
  (write_at_bit t (map snd ws) a = UB /\ Exists (fun w => reached t (fst w) = true /\ undefined_write2 t (fst w)) ws) \/
  (~ Exists (fun w => reached t (fst w) = true /\ undefined_write2 t (fst w)) ws /\ exists r, write_at_bit t (map snd ws) a = Ok r /\ arr2 t r /\
     forall j p, element t j -> 0 <= p < pa_base t -> bit_at r (start t j + p) = after2 t ws j p (bit_at a (start t j + p))).
Proof.
  unfold write_at_bit. induction 1 as [|[i [op v]] ws (Ix & O & El & Tv & D) _ IH]; intros a A.
  - right. split; [intros X; inversion X|]. exists a. split; [reflexivity|]. split; [exact A|]. reflexivity.
  - cbn [fst snd map ofold] in *. destruct (write2_step t a op i v _ A Ix O El Tv D) as [(E & U)|(NU & a' & E & A' & Q)]; rewrite E; cbn [bind].
    + left. split; [reflexivity|]. apply Exists_cons_hd. exact U.
    + destruct (IH a' A') as [(E' & U)|(NU' & r & E' & Ar & R)].
      * left. split; [exact E'|]. now apply Exists_cons_tl.
      * right. split; [intros X; inversion X; subst; [apply NU; assumption|apply NU'; assumption]|]. exists r. split; [exact E'|]. split; [exact Ar|].
        intros j p Ej Hp. rewrite R by assumption. rewrite Q by assumption. reflexivity.
Qed.

Theorem writes4 t ws a : Forall (fun w => index (fst (snd w)) (fst w) /\ (lw (fst (snd w)) = 1 -> lsgn (fst (snd w)) = false) /\ element t (fst w) /\ ltyped (snd (snd w)) (pa_base t) (lsgn (snd (snd w)))) ws -> arr4 t a ->
  (write_at t (map snd ws) a = UB <-> Exists (fun w => reached t (fst w) = true /\ undefined_write4 t (snd (snd w)) (fst w)) ws) /\
  (~ Exists (fun w => reached t (fst w) = true /\ undefined_write4 t (snd (snd w)) (fst w)) ws -> exists r, write_at t (map snd ws) a = Ok r /\ arr4 t r /\
     forall j p, element t j -> 0 <= p < pa_base t -> sym_at r (start t j + p) = after4 t ws j p (sym_at a (start t j + p))).
Proof.
  intros F A. destruct (run4 t ws F a A) as [(E & U)|(NU & r & E & R)]; rewrite E; (split; [split; [intros X; try discriminate X; try exact U|intros; tauto]|intros X; try contradiction]). exists r. auto.
Qed.
Theorem writes2 t ws a : Forall (fun w => index (fst (snd w)) (fst w) /\ (lw (fst (snd w)) = 1 -> lsgn (fst (snd w)) = false) /\ element t (fst w) /\ typed (snd (snd w)) (pa_base t) (bsgn (snd (snd w))) /\ tidy (snd (snd w))) ws -> arr2 t a ->
  (write_at_bit t (map snd ws) a = UB <-> Exists (fun w => reached t (fst w) = true /\ undefined_write2 t (fst w)) ws) /\
  (~ Exists (fun w => reached t (fst w) = true /\ undefined_write2 t (fst w)) ws -> exists r, write_at_bit t (map snd ws) a = Ok r /\ arr2 t r /\
     forall j p, element t j -> 0 <= p < pa_base t -> bit_at r (start t j + p) = after2 t ws j p (bit_at a (start t j + p))).
Proof.
  intros F A. destruct (run2 t ws F a A) as [(E & U)|(NU & r & E & R)]; rewrite E; (split; [split; [intros X; try discriminate X; try exact U|intros; tauto]|intros X; try contradiction]). exists r. auto.
Qed.

Lemma lost_dec v w : lost v w \/ ~ lost v w.
Proof.
  destruct (existsb (fun q => unknown (sym_at v q)) (zrange 64 w)) eqn:E.
  - left. apply existsb_exists in E. destruct E as (q & I & U). unfold zrange in I. apply in_map_iff in I. destruct I as (k & <- & K). apply in_seq in K. exists (64 + Z.of_nat k). split; [lia|exact U].
  - right. intros (q & Hq & U). assert (X : existsb (fun q => unknown (sym_at v q)) (zrange 64 w) = true); [|congruence]. apply existsb_exists. exists q. split; [|exact U]. unfold zrange. apply in_map_iff. exists (Z.to_nat (q - 64)). split; [lia|apply in_seq; lia].
Qed.
Theorem constant_writes t ws : Forall (fun w => element t (fst w) /\ ltyped (snd w) (pa_base t) (lsgn (snd w))) ws -> forall a, arr4 t a ->
  (write_each t ws a = UB <-> Exists (fun w => lost (snd w) (pa_base t)) ws) /\
  (~ Exists (fun w => lost (snd w) (pa_base t)) ws -> exists r, write_each t ws a = Ok r /\ arr4 t r /\
     forall i p, element t i -> 0 <= p < pa_base t -> sym_at r (start t i + p) = match latest ws i with Some v => sym_at v p | None => sym_at a (start t i + p) end).
Proof.
  intros F a A. assert (G : ~ Exists (fun w => lost (snd w) (pa_base t)) ws -> exists r, write_each t ws a = Ok r /\ arr4 t r /\
     forall i p, element t i -> 0 <= p < pa_base t -> sym_at r (start t i + p) = match latest ws i with Some v => sym_at v p | None => sym_at a (start t i + p) end).
  { intros NL. apply each_latest; [|exact A]. rewrite Forall_forall in *. intros w W. destruct (F w W) as [E T]. split; [exact E|]. split; [exact T|]. intros q Hq.
    destruct (unknown (sym_at (snd w) q)) eqn:U; [|reflexivity]. exfalso. apply NL. apply Exists_exists. exists w. split; [exact W|]. exists q. auto. }
  split; [|exact G]. split.
  - intros E. assert (D : Exists (fun w => lost (snd w) (pa_base t)) ws \/ ~ Exists (fun w => lost (snd w) (pa_base t)) ws).
    { clear. induction ws as [|w ws [I|I]]; [right; intros X; inversion X|left; now apply Exists_cons_tl|]. destruct (lost_dec (snd w) (pa_base t)); [left; now apply Exists_cons_hd|right; intros X; inversion X; subst; tauto]. }
    destruct D as [D|D]; [exact D|]. destruct (G D) as (r & X & _). congruence.
  - clear G. revert a A. induction F as [|[i v] ws [El Tv] _ IH]; intros a A X; [inversion X|]. cbn [fst snd] in *. unfold write_each in *. cbn [ofold fst snd].
    assert (B1 : 1 <= pa_base t) by apply A. assert (W : pa_base t = (Z.abs (i - i) + 1) * pa_base t) by (rewrite Z.sub_diag, Z.abs_0; lia).
    assert (Es : start t i = start t (Z.min i i)) by (rewrite Z.min_id; reflexivity).
    destruct (range_write4_iff t a i i v (pa_base t) (lsgn v) (start t i) (pa_base t) A El El Es W B1 Tv) as [_ U]. rewrite Z.min_id in U.
    destruct (lost_dec v (pa_base t)) as [L|L].
    + apply U in L. rewrite L. reflexivity.
    + destruct (range_write t a i i v (pa_base t) (lsgn v) (pa_base t) A El El W B1 Tv) as (a' & E & A' & _).
      { intros q Q _. destruct (unknown (sym_at v q)) eqn:Uq; [|reflexivity]. exfalso. apply L. exists q. auto. }
      rewrite E. cbn [bind]. apply IH; [exact A'|]. inversion X; subst; [contradiction|assumption].
Qed.
