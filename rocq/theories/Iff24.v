(** Exactly when writing a range of a 2-state vector is right, for every direction of both ranges. *)
From Coq Require Import ZArith List Bool Lia Zify ZifyBool.
From Verif Require Import Cpp BigNum Bit Logic More Spec SpecExact SpecMachine SpecWide SpecIff5 ZBits Words BigNumProofs BitProofs BitMain BitMain3 BitMain4 MachineProofs WideProofs WideProofs3 WideProofs4  BitExt Exact3 Exact5 Iff5 Iff14 Iff19.
Import ListNotations.
Open Scope Z_scope.
Local Ltac Zify.zify_post_hook ::= idtac.

Lemma slot_place b i : from_zero b -> slot b i = place (bmsb b) (blsb b) i.
Proof. unfold from_zero, slot, place. intros Z0. destruct (Z.leb_spec (blsb b) (bmsb b)); lia. Qed.

(** reading any index *)
Lemma read_any op d : vec op -> tidy op -> from_zero op -> - 2 ^ 33 <= d < 2 ^ 33 ->
  (readable op (place (bmsb op) (blsb op) d) -> bit_get op d = Ok (reads op (place (bmsb op) (blsb op) d))) /\
  (~ readable op (place (bmsb op) (blsb op) d) -> bit_get op d = UB).
Proof.
  intros V Ti Z0 D. rewrite get_any by exact V. unfold any_position. assert (I1 : int_ok (bmsb op)) by apply V. assert (I2 : int_ok (blsb op)) by apply V. assert (W : bw op < 2 ^ 31) by apply V. pose proof (bw_pos op) as W1.
  unfold int_ok in *. rewrite slot_place by exact Z0. set (q := place (bmsb op) (blsb op) d). assert (Rq : - 2 ^ 34 <= q < 2 ^ 34) by (unfold q, place; destruct (blsb op <=? bmsb op) eqn:?; lia).
  unfold small. destruct (Z.leb_spec (bw op) 64).
  - unfold position. rewrite slot_place by exact Z0. fold q. unfold readable. destruct ((0 <=? q) && (q <? computing (bw op))) eqn:Q.
    + split; [intros _|intros C; exfalso; apply C; right; lia]. f_equal. unfold reads. destruct ((0 <=? q) && (q <? bw op)) eqn:Q2.
      * unfold bit_at, num. rewrite Z.mod_pow2_bits_low by lia. reflexivity.
      * replace (bw op <=? 64) with true by lia. rewrite andb_true_r. destruct (Z.leb_spec 2 (bw op)) as [H2|H2]; cbn [andb].
        -- rewrite (tidy_stored op V Ti) by lia. apply value_high. lia.
        -- assert (B1 : bw op = 1) by lia. assert (S01 : 0 <= stored op < 2 ^ 1).
           { destruct (vec_cases op V) as [(v & E & _ & _ & St) | (ws & E & L & _)]; [|lia]. unfold tidy in Ti. rewrite E, B1, andb_false_r in Ti. rewrite St. exact Ti. }
           apply testbit_small with 1; lia.
    + split; [intros [C|C]; lia|reflexivity].
  - unfold readable. split; [intros _|intros C; exfalso; apply C; left; lia]. f_equal. unfold reads. replace (bw op <=? 64) with false by lia. rewrite andb_false_r. cbn [andb].
    destruct ((0 <=? q) && (q <? bw op)) eqn:Q2.
    + rewrite (Z.mod_small q) by lia. replace (q <? bw op) with true by lia. cbn [andb]. unfold bit_at, num. rewrite Z.mod_pow2_bits_low by lia. reflexivity.
    + assert (E : (q mod 2 ^ 64 <? bw op) = false); [|rewrite E; reflexivity]. apply Z.ltb_ge. destruct (Z.lt_ge_cases q 0).
      * replace q with (q + 2 ^ 64 + (-1) * 2 ^ 64) by lia. rewrite Z.mod_add, Z.mod_small by lia. lia.
      * rewrite Z.mod_small by lia. lia.
Qed.

Definition put_step (op : bit) (src : Z -> Z) (y : bit) (i : Z) : outcome bit := let! v := bit_get op (src i) in bit_set_bit0 y i v.
Lemma put_loop x op (src : Z -> Z) (f : Z -> bool) lo hi : vec x -> from_zero x -> 0 <= lo <= hi -> hi < bw x -> (forall i, lo <= i < hi + 1 -> bit_get op (src i) = Ok (f i)) ->
  exists r, ofold (put_step op src) (zrange lo (hi + 1)) x = Ok r /\ vec r /\ bmsb r = bmsb x /\ blsb r = blsb x /\ bsgn r = bsgn x /\
    forall i, in_range (bmsb x) (blsb x) i -> bit_at r (place (bmsb x) (blsb x) i) = if (lo <=? i) && (i <=? hi) then f i else bit_at x (place (bmsb x) (blsb x) i).
Proof.
  intros V Z0 Hlo Hhi Hf. assert (Rx : forall i, in_range (bmsb x) (blsb x) i <-> 0 <= i < bw x) by (intros i; unfold in_range, bw, width, from_zero in *; lia).
  set (Inv := fun i y => vec y /\ bmsb y = bmsb x /\ blsb y = blsb x /\ bsgn y = bsgn x /\
    forall p, in_range (bmsb x) (blsb x) p -> bit_at y (place (bmsb x) (blsb x) p) = if (lo <=? p) && (p <? i) then f p else bit_at x (place (bmsb x) (blsb x) p)).
  destruct (zrange_ofold_ind (put_step op src) Inv lo (hi + 1) x) as (r & E & Vr & R1 & R2 & R3 & Br); [lia | | |].
  - split; [exact V|]. repeat (split; [reflexivity|]). intros p Hp. replace ((lo <=? p) && (p <? lo)) with false by lia. reflexivity.
  - intros i y Hi (Vy & Y1 & Y2 & Y3 & By). unfold put_step. rewrite Hf by lia. cbn [bind].
    assert (Zy : Z.min (bmsb y) (blsb y) = 0) by (rewrite Y1, Y2; exact Z0). assert (Ri : in_range (bmsb y) (blsb y) i) by (rewrite Y1, Y2; apply Rx; lia).
    destruct (pos_zero_based y i Zy Ri) as (_ & P2 & P3).
    destruct (bit_set_bit0_spec y i (f i) Vy ltac:(lia) ltac:(rewrite P2; exact P3)) as (y' & E' & V' & F1 & F2 & F3 & B' & _).
    exists y'. split; [exact E'|]. split; [exact V'|]. split; [congruence|]. split; [congruence|]. split; [congruence|].
    intros p Hp. assert (Hp' : in_range (bmsb y) (blsb y) p) by (rewrite Y1, Y2; exact Hp). destruct (pos_zero_based y p Zy Hp') as (_ & Q2 & Q3). rewrite <- Y1, <- Y2, B' by exact Q3. rewrite P2, Y1, Y2.
    assert (Inj : (place (bmsb x) (blsb x) p =? place (bmsb x) (blsb x) i) = (p =? i)) by (unfold place; destruct (blsb x <=? bmsb x); lia). rewrite Inj. destruct (Z.eqb_spec p i) as [->|Ne].
    + replace ((lo <=? i) && (i <? i + 1)) with true by lia. reflexivity.
    + rewrite By by exact Hp. replace ((lo <=? p) && (p <? i + 1)) with ((lo <=? p) && (p <? i)) by lia. reflexivity.
  - exists r. split; [exact E|]. split; [exact Vr|]. split; [exact R1|]. split; [exact R2|]. split; [exact R3|]. intros p Hp. rewrite Br by exact Hp. replace ((lo <=? p) && (p <? hi + 1)) with ((lo <=? p) && (p <=? hi)) by lia. reflexivity.
Qed.
(** the first undefined read ends the loop *)
Lemma put_loop_ub x op (src : Z -> Z) (f : Z -> bool) (ok : Z -> bool) hi : forall c lo, hi + 1 - lo = Z.of_nat c -> forall y, vec y -> bmsb y = bmsb x -> blsb y = blsb x -> from_zero x -> 0 <= lo -> hi < bw x ->
  (forall i, lo <= i <= hi -> bit_get op (src i) = if ok i then Ok (f i) else UB) -> (exists i, lo <= i <= hi /\ ok i = false) -> ofold (put_step op src) (zrange lo (hi + 1)) y = UB.
Proof.
  induction c as [|c IH]; intros lo Hc y Vy Y1 Y2 Z0 Hlo Hhi Hf (i & Hi & Oi); [lia|]. rewrite zrange_cons by lia. cbn [ofold]. unfold put_step at 1. rewrite Hf by lia. destruct (ok lo) eqn:Ol; [|reflexivity]. cbn [bind].
  assert (Zy : Z.min (bmsb y) (blsb y) = 0) by (rewrite Y1, Y2; exact Z0). assert (Ri : in_range (bmsb y) (blsb y) lo) by (rewrite Y1, Y2; unfold in_range, bw, width, from_zero in *; lia).
  destruct (pos_zero_based y lo Zy Ri) as (_ & P2 & P3). destruct (bit_set_bit0_spec y lo (f lo) Vy ltac:(lia) ltac:(rewrite P2; exact P3)) as (y' & E' & V' & F1 & F2 & _ & _ & _).
  rewrite E'. cbn [bind]. apply IH; try assumption; try congruence; try lia.
  - intros j Hj. apply Hf. lia.
  - exists i. split; [|exact Oi]. destruct (Z.eq_dec i lo); [subst; congruence|lia].
Qed.

Definition okb (b : bit) (q : Z) : bool := (65 <=? bw b) || ((0 <=? q) && (q <? computing (bw b))).
Lemma okb_readable b q : okb b q = true <-> readable b q.
Proof. unfold okb, readable. lia. Qed.

Lemma put_source x op c lo hi (src : Z -> Z) : vec x -> from_zero x -> vec op -> from_zero op -> tidy op -> 0 <= lo <= hi -> hi < bw x -> 0 <= c <= lo ->
  (forall i, lo <= i <= hi -> src i = (if Bool.eqb (descending op) (descending x) then i else Z.max (bmsb op) (blsb op) - i) - c) ->
  ((forall i, lo <= i <= hi -> readable op (source x op c i)) -> exists r, ofold (put_step op src) (zrange lo (hi + 1)) x = Ok r /\ vec r /\ bmsb r = bmsb x /\ blsb r = blsb x /\ bsgn r = bsgn x /\
     forall i, in_range (bmsb x) (blsb x) i -> bit_at r (place (bmsb x) (blsb x) i) = if (lo <=? i) && (i <=? hi) then reads op (source x op c i) else bit_at x (place (bmsb x) (blsb x) i)) /\
  (ofold (put_step op src) (zrange lo (hi + 1)) x = UB <-> exists i, lo <= i <= hi /\ ~ readable op (source x op c i)).
Proof.
  intros V Z0 Vo Zo To Hlo Hhi Hc Hs. assert (Wx : bw x < 2 ^ 31) by apply V. assert (I1 : int_ok (bmsb op)) by apply Vo. assert (I2 : int_ok (blsb op)) by apply Vo. unfold int_ok in *.
  assert (G : forall i, lo <= i <= hi -> bit_get op (src i) = if okb op (source x op c i) then Ok (reads op (source x op c i)) else UB).
  { intros i Hi. rewrite Hs by exact Hi. destruct (read_any op ((if Bool.eqb (descending op) (descending x) then i else Z.max (bmsb op) (blsb op) - i) - c) Vo To Zo) as [A B]; [destruct (Bool.eqb _ _); lia|].
    fold (source x op c i) in A, B. destruct (okb op (source x op c i)) eqn:O; [apply A; now apply okb_readable|]. apply B. intros C. apply okb_readable in C. congruence. }
  assert (F : (forall i, lo <= i <= hi -> readable op (source x op c i)) -> exists r, ofold (put_step op src) (zrange lo (hi + 1)) x = Ok r /\ vec r /\ bmsb r = bmsb x /\ blsb r = blsb x /\ bsgn r = bsgn x /\
     forall i, in_range (bmsb x) (blsb x) i -> bit_at r (place (bmsb x) (blsb x) i) = if (lo <=? i) && (i <=? hi) then reads op (source x op c i) else bit_at x (place (bmsb x) (blsb x) i)).
  { intros A. apply (put_loop x op src (fun i => reads op (source x op c i))); try assumption. intros i Hi. rewrite G by lia. rewrite (proj2 (okb_readable op _)); [reflexivity|]. apply A. lia. }
  split; [exact F|]. split.
  - intros U. destruct (List.existsb (fun i => negb (okb op (source x op c i))) (zrange lo (hi + 1))) eqn:X.
    + apply existsb_exists in X. destruct X as (i & Hi & N). apply in_zrange in Hi. exists i. split; [lia|]. intros R. apply okb_readable in R. rewrite R in N. discriminate N.
    + exfalso. destruct F as (r & E & _); [|rewrite E in U; discriminate U]. intros i Hi. apply okb_readable. destruct (okb op (source x op c i)) eqn:O; [reflexivity|]. exfalso.
      assert (Y : existsb (fun i => negb (okb op (source x op c i))) (zrange lo (hi + 1)) = true) by (apply existsb_exists; exists i; split; [apply in_zrange; lia|rewrite O; reflexivity]). congruence.
  - intros (i & Hi & N). apply (put_loop_ub x op src (fun i => reads op (source x op c i)) (fun i => okb op (source x op c i)) hi (Z.to_nat (hi + 1 - lo))); try assumption; try reflexivity; try lia.
    exists i. split; [exact Hi|]. destruct (okb op (source x op c i)) eqn:O; [|reflexivity]. exfalso. apply N. now apply okb_readable.
Qed.

Lemma update_fold_eq x op c lo hi : vec x ->
  ofold (fun y i => let idx := if xorb (big_endian (bmsb op) (blsb op)) (big_endian (bmsb y) (blsb y)) then Z.max (blsb op) (bmsb op) - i else i in let! v := bit_get op (idx - c) in bit_set_bit0 y i v) (zrange lo hi) x =
  ofold (put_step op (fun i => (if Bool.eqb (descending op) (descending x) then i else Z.max (bmsb op) (blsb op) - i) - c)) (zrange lo hi) x.
Proof.
  intros V. apply (ofold_ext_in (fun y => bmsb y = bmsb x /\ blsb y = blsb x)); [| |auto].
  - intros y i [F1 F2]. rewrite F1, F2. unfold put_step, big_endian, descending. cbn zeta. rewrite (Z.max_comm (blsb op)). destruct (blsb op <=? bmsb op), (blsb x <=? bmsb x); reflexivity.
  - intros y i y' [F1 F2] G. unfold put_step in G. match type of G with bind (bit_get op ?d) _ = _ => destruct (bit_get op d) end; cbn [bind] in G; try discriminate. apply set0_fields in G. destruct G. split; congruence.
Qed.
Lemma zero_in_range x a : from_zero x -> in_range (bmsb x) (blsb x) a -> 0 <= a < bw x.
Proof. unfold from_zero, in_range, bw, width. lia. Qed.

Lemma put_iff x op c lo hi src : vec x -> from_zero x -> vec op -> from_zero op -> tidy op -> 0 <= lo <= hi -> hi < bw x -> 0 <= c <= lo ->
  (forall i, lo <= i <= hi -> src i = (if Bool.eqb (descending op) (descending x) then i else Z.max (bmsb op) (blsb op) - i) - c) ->
  (exists r, ofold (put_step op src) (zrange lo (hi + 1)) x = Ok r /\ range_written x op lo hi r) <->
  forall i, lo <= i <= hi -> readable op (source x op c i) /\ reads op (source x op c i) = bit_at op (within x lo hi i).
Proof.
  intros V Z0 Vo Zo To Hlo Hhi Hc Hs. destruct (put_source x op c lo hi src V Z0 Vo Zo To Hlo Hhi Hc Hs) as [A B]. split.
  - intros (r & E & _ & _ & _ & _ & Br). assert (Rd : forall i, lo <= i <= hi -> readable op (source x op c i)).
    { intros i Hi. apply okb_readable. destruct (okb op (source x op c i)) eqn:O; [reflexivity|]. exfalso. rewrite (proj2 B) in E; [discriminate E|]. exists i. split; [exact Hi|]. intros R. apply okb_readable in R. congruence. }
    intros i Hi. split; [now apply Rd|]. destruct (A Rd) as (r' & E' & _ & _ & _ & _ & Br'). rewrite E in E'. inversion E'; subst r'.
    assert (Ri : in_range (bmsb x) (blsb x) i) by (unfold in_range, bw, width, from_zero in *; lia). specialize (Br i Ri). rewrite Br' in Br by exact Ri. replace ((lo <=? i) && (i <=? hi)) with true in Br by lia. exact Br.
  - intros C. destruct A as (r & E & Vr & R1 & R2 & R3 & Br); [intros i Hi; now apply C|]. exists r. split; [exact E|]. split; [exact Vr|]. split; [exact R1|]. split; [exact R2|]. split; [exact R3|].
    intros i Ri. rewrite Br by exact Ri. destruct ((lo <=? i) && (i <=? hi)) eqn:Q; [|reflexivity]. apply C. lia.
Qed.
Lemma update_r_iff x op a b : vec x -> from_zero x -> vec op -> from_zero op -> tidy op -> in_range (bmsb x) (blsb x) a -> in_range (bmsb x) (blsb x) b ->
  ((exists r, bit_update_r x a b op = Ok r /\ range_written x op (Z.min a b) (Z.max a b) r) <->
    forall i, Z.min a b <= i <= Z.max a b -> readable op (source x op (Z.min a b) i) /\ reads op (source x op (Z.min a b) i) = bit_at op (within x (Z.min a b) (Z.max a b) i)) /\
  (bit_update_r x a b op = UB <-> exists i, Z.min a b <= i <= Z.max a b /\ ~ readable op (source x op (Z.min a b) i)).
Proof.
  intros V Z0 Vo Zo To Ra Rb. apply (zero_in_range x a Z0) in Ra. apply (zero_in_range x b Z0) in Rb.
  assert (E : bit_update_r x a b op = ofold (put_step op (fun i => (if Bool.eqb (descending op) (descending x) then i else Z.max (bmsb op) (blsb op) - i) - Z.min a b)) (zrange (Z.min a b) (Z.max a b + 1)) x) by (apply update_fold_eq; exact V).
  rewrite E. split; [apply put_iff; try assumption; try lia; reflexivity|apply put_source; try assumption; try lia; reflexivity].
Qed.
Lemma update_c_iff x op a b : vec x -> from_zero x -> vec op -> from_zero op -> tidy op -> in_range (bmsb x) (blsb x) a -> in_range (bmsb x) (blsb x) b ->
  ((exists r, bit_update_c x a b op = Ok r /\ range_written x op (Z.min a b) (Z.max a b) r) <->
    forall i, Z.min a b <= i <= Z.max a b -> readable op (source x op 0 i) /\ reads op (source x op 0 i) = bit_at op (within x (Z.min a b) (Z.max a b) i)) /\
  (bit_update_c x a b op = UB <-> exists i, Z.min a b <= i <= Z.max a b /\ ~ readable op (source x op 0 i)).
Proof.
  intros V Z0 Vo Zo To Ra Rb. apply (zero_in_range x a Z0) in Ra. apply (zero_in_range x b Z0) in Rb.
  assert (E : bit_update_c x a b op = ofold (put_step op (fun i => (if Bool.eqb (descending op) (descending x) then i else Z.max (bmsb op) (blsb op) - i) - 0)) (zrange (Z.min a b) (Z.max a b + 1)) x).
  { unfold bit_update_c. change (bsize x) with (bw x). replace ((a <? bw x) && (b <? bw x)) with true by lia. unfold requires. cbn [negb]. rewrite <- (update_fold_eq x op 0) by exact V.
    apply (ofold_ext_in (fun y => True)); auto. intros y i _. cbn zeta. rewrite Z.sub_0_r. reflexivity. }
  rewrite E. split; [apply put_iff; try assumption; try lia; reflexivity|apply put_source; try assumption; try lia; reflexivity].
Qed.

(** ranges [n-1:0] *)
Lemma typed_zero b n s : 1 <= n -> typed b n s -> vec b /\ from_zero b /\ descending b = true /\ bw b = n /\ bmsb b = n - 1 /\ blsb b = 0.
Proof. intros Hn T. pose proof (typed_bw b n s Hn T) as W. destruct T as (V & [E1 E2] & _). unfold from_zero, descending. rewrite E1, E2. repeat split; try lia; apply V. Qed.
Lemma source_plain x op n s k so c i : 1 <= n -> 1 <= k -> typed x n s -> typed op k so -> source x op c i = i - c /\ forall lo hi, within x lo hi i = i - lo.
Proof.
  intros Hn Hk Tx To. destruct (typed_zero x n s Hn Tx) as (_ & _ & D1 & _). destruct (typed_zero op k so Hk To) as (_ & _ & D2 & _ & B1 & B2). unfold source, within, place. rewrite D1, D2, B1, B2. cbn [Bool.eqb].
  replace (0 <=? k - 1) with true by lia. split; [lia|reflexivity].
Qed.
Lemma update_run_iff x n s op k so a b : 1 <= n -> 1 <= k -> typed x n s -> typed op k so -> tidy op -> 0 <= a < n -> 0 <= b < n ->
  ((exists r, bit_update_r x a b op = Ok r /\ range_written x op (Z.min a b) (Z.max a b) r) <->
    Z.abs (a - b) < k \/ 65 <= k \/ (Z.abs (a - b) < computing k /\ (k = 1 \/ 0 <= value op))) /\
  (bit_update_r x a b op = UB <-> k <= 64 /\ computing k <= Z.abs (a - b)).
Proof.
  intros Hn Hk Tx To Ti Ha Hb. destruct (typed_zero x n s Hn Tx) as (Vx & Zx & D1 & Wx & X1 & X2). destruct (typed_zero op k so Hk To) as (Vo & Zo & D2 & Wo & O1 & O2).
  assert (Rr : forall i, 0 <= i < n -> in_range (bmsb x) (blsb x) i) by (intros i Hi; unfold in_range; rewrite X1, X2; lia).
  assert (Cp : k <= 64 -> k <= computing k) by (intros K; destruct (computing_cases k); lia).
  destruct (update_r_iff x op a b Vx Zx Vo Zo Ti (Rr a Ha) (Rr b Hb)) as [A B]. rewrite A, B. clear A B.
  assert (P : forall i, source x op (Z.min a b) i = i - Z.min a b /\ within x (Z.min a b) (Z.max a b) i = i - Z.min a b) by (intros i; destruct (source_plain x op n s k so (Z.min a b) i Hn Hk Tx To) as [Q1 Q2]; split; [exact Q1|apply Q2]).
  assert (F0 : forall q, k <= q -> bit_at op q = false) by (intros q Hq; unfold bit_at; apply testbit_small with k; [rewrite <- Wo; apply num_range|exact Hq]).
  split; [split|split].
  - intros C. destruct (Z.lt_ge_cases (Z.abs (a - b)) k); [left; assumption|]. destruct (Z.le_gt_cases 65 k); [right; left; assumption|]. right. right.
    destruct (C (Z.max a b) ltac:(lia)) as [R1 R2]. destruct (P (Z.max a b)) as [P1 P2]. rewrite P1 in *. rewrite P2 in R2. replace (Z.max a b - Z.min a b) with (Z.abs (a - b)) in * by lia.
    split; [destruct R1 as [R1|R1]; rewrite Wo in R1; lia|]. unfold reads in R2. rewrite Wo, F0 in R2 by lia. destruct (Z.eq_dec k 1); [left; assumption|right]. replace (Z.abs (a - b) <? k) with false in R2 by lia. rewrite andb_false_r in R2. lia.
  - intros D i Hi. destruct (P i) as [-> ->]. unfold readable, reads. rewrite Wo. split; [lia|]. destruct ((0 <=? i - Z.min a b) && (i - Z.min a b <? k)) eqn:Q; [reflexivity|]. rewrite F0 by lia. lia.
  - intros (i & Hi & N). destruct (P i) as [P1 _]. rewrite P1 in N. unfold readable in N. rewrite Wo in N. lia.
  - intros [K1 K2]. exists (Z.max a b). split; [lia|]. destruct (P (Z.max a b)) as [-> _]. unfold readable. rewrite Wo. lia.
Qed.
(** references to slices *)
Lemma slice_ref_iff x op a b : vec x -> from_zero x -> vec op -> from_zero op -> tidy op -> in_range (bmsb x) (blsb x) a -> in_range (bmsb x) (blsb x) b ->
  ((exists r, bit_slice_ref_c x a b op = Ok r /\ range_written x op (Z.min a b) (Z.max a b) r) <->
    forall i, Z.min a b <= i <= Z.max a b -> readable op (source x op 0 i) /\ reads op (source x op 0 i) = bit_at op (within x (Z.min a b) (Z.max a b) i)) /\
  ((exists r, bit_slice_ref_r x a b op = Ok r /\ range_written x op (Z.min a b) (Z.max a b) r) <->
    forall i, Z.min a b <= i <= Z.max a b -> readable op (source x op (Z.min a b) i) /\ reads op (source x op (Z.min a b) i) = bit_at op (within x (Z.min a b) (Z.max a b) i)) /\
  (forall k (up : bool), 1 <= k -> b = (if up then a + (k - 1) else a - (k - 1)) -> bit_slice_ref_idx x k up a op = bit_slice_ref_r x a b op).
Proof.
  intros V Z0 Vo Zo To Ra Rb. split; [|split].
  - rewrite <- (proj1 (update_c_iff x op a b V Z0 Vo Zo To Ra Rb)). unfold bit_slice_ref_c. apply (zero_in_range x a Z0) in Ra. apply (zero_in_range x b Z0) in Rb. change (bsize x) with (bw x).
    replace (Z.max a b <? bw x) with true by lia. reflexivity.
  - apply (update_r_iff x op a b V Z0 Vo Zo To Ra Rb).
  - intros k up K E. unfold bit_slice_ref_idx. apply (zero_in_range x a Z0) in Ra. assert (W : bw x < 2 ^ 31) by apply V. cbn zeta. rewrite BitMain.i32_id by lia. rewrite <- E. reflexivity.
Qed.
