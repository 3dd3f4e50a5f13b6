(** Positions given as template constants. *)
From Coq Require Import ZArith List Bool Lia.
From Verif Require Import Cpp BigNum Bit Logic Const Spec SpecExact SpecMachine SpecWide SpecFour SpecConst ZBits Words BigNumProofs BitProofs BitMain BitMain2 LogicProofs LogicMain
  MachineProofs3 MachineProofs4 WideProofs WideProofs3 WideProofs4 Iff5.
Import ListNotations.
Open Scope Z_scope.

Lemma vec_bounds b : vec b -> int_ok (bmsb b) /\ int_ok (blsb b) /\ 1 <= bw b < 2 ^ 31.
Proof. intros (_ & A & B & C). split; [exact A|]. split; [exact B|]. split; [|exact C]. unfold bw, width. lia. Qed.

Lemma const_pos_in b i : vec b -> Z.min (bmsb b) (blsb b) = 0 -> in_range (bmsb b) (blsb b) i -> const_pos b i = Ok (wr_pos b i).
Proof.
  intros V M R. destruct (vec_bounds b V) as (A & B & C). destruct (pos_zero_based b i M R) as (E1 & E2 & E3).
  unfold const_pos, big_endian. fold (rd_pos b i). unfold int_ok in *. unfold wr_pos in *.
  assert (0 <= rd_pos b i < 2 ^ 31) by lia.
  replace (in_ity TI32 (rd_pos b i)) with true by (symmetry; unfold in_ity; cbn; lia).
  cbn [requires]. replace (in_ity TI32 (rd_pos b i - Z.min (blsb b) (bmsb b))) with true by (symmetry; unfold in_ity; cbn; lia). reflexivity.
Qed.
Lemma set_const_in b i x : vec b -> Z.min (bmsb b) (blsb b) = 0 -> in_range (bmsb b) (blsb b) i -> bit_set_const b i x = bit_set b i x.
Proof.
  intros V M R. unfold bit_set_const. rewrite (const_pos_in b i V M R). cbn [bind]. destruct (pos_zero_based b i M R) as (E1 & E2 & E3).
  unfold bit_set, big_endian. fold (rd_pos b i). fold (wr_pos b i). destruct (vec_bounds b V) as (_ & _ & C).
  destruct (bval b) as [v|ws]; [reflexivity|]. rewrite u64_id by lia.
  replace (bsize b) with (bw b) by reflexivity. replace ((0 <=? wr_pos b i) && (wr_pos b i <? bw b)) with true by (symmetry; lia). reflexivity.
Qed.

Lemma const_bit b i x : vec b -> Z.min (bmsb b) (blsb b) = 0 -> in_range (bmsb b) (blsb b) i ->
  (bw b <= 64 -> bit_get_const b i = Ok (bit_at b (place (bmsb b) (blsb b) i))) /\
  (65 <= bw b -> bit_get_const b i = IllFormed) /\
  exists b', bit_set_const b i x = Ok b' /\ vec b' /\ bmsb b' = bmsb b /\ blsb b' = blsb b /\ bsgn b' = bsgn b /\
    forall p, 0 <= p < bw b -> bit_at b' p = if p =? place (bmsb b) (blsb b) i then x else bit_at b p.
Proof.
  intros V M R. destruct (pos_zero_based b i M R) as (E1 & E2 & E3). unfold bit_get_const. change (bsize b) with (bw b). unfold native_num.
  assert (i < bw b) by (unfold in_range, bw, width in *; lia).
  split; [|split].
  - intros L. replace (i <? bw b) with true by lia. replace (bw b <=? 64) with true by lia. cbn [andb requires]. now apply (proj1 (set_get_zero_based b i x V M R)).
  - intros L. replace (bw b <=? 64) with false by lia. rewrite andb_false_r. reflexivity.
  - rewrite (set_const_in b i x V M R). destruct (bit_set_spec b i x V ltac:(lia)) as (b' & S0 & V' & Hm & Hl & Hs & B & _).
    exists b'. rewrite E2 in B. auto 10.
Qed.

Definition write_const (l : logic) (i : Z) (s : sym) : outcome logic :=
  match s with S0 => logic_set_const l i false | S1 => logic_set_const l i true | SX => logic_set_x_const l i | SZ => logic_set_z_const l i end.
Lemma write_const_eq l i s : lvec l -> Z.min (lmsb l) (llsb l) = 0 -> in_range (lmsb l) (llsb l) i -> write_const l i s = logic_write l i s.
Proof.
  intros V Z0 R. destruct (lvec_xz_range l V) as [A B]. destruct V as (V & V' & _).
  assert (Q : forall x, bit_set_const (l_val l) i x = bit_set (l_val l) i x) by (intros; now apply set_const_in).
  assert (Q' : forall x, bit_set_const (l_xz l) i x = bit_set (l_xz l) i x) by (intros; apply set_const_in; [exact V'| |]; rewrite A, B; assumption).
  assert (0 <= i) by (unfold in_range, lmsb, llsb in *; lia).
  destruct s; cbn [write_const logic_write]; unfold logic_set_const, logic_set_x_const, logic_set_z_const, logic_set, logic_set_x, logic_set_z; rewrite ?Q, ?Q';
    try (replace (0 <=? i) with true by lia; cbn [requires]); reflexivity.
Qed.
Lemma const_logic l i s : lvec l -> Z.min (lmsb l) (llsb l) = 0 -> in_range (lmsb l) (llsb l) i ->
  exists l', (match s with S0 => logic_set_const l i false | S1 => logic_set_const l i true | SX => logic_set_x_const l i | SZ => logic_set_z_const l i end) = Ok l' /\
    lvec l' /\ lmsb l' = lmsb l /\ llsb l' = llsb l /\ lsgn l' = lsgn l /\
    forall p, 0 <= p < lw l -> sym_at l' p = if p =? place (lmsb l) (llsb l) i then s else sym_at l p.
Proof.
  intros V Z0 R. destruct (logic_write_spec l i s V Z0 R) as (l' & E & _ & V' & A & B & C & _ & Q). exists l'.
  rewrite <- (write_const_eq l i s V Z0 R) in E. auto 10.
Qed.
Lemma const_logic_read l i : lvec l -> Z.min (lmsb l) (llsb l) = 0 -> in_range (lmsb l) (llsb l) i ->
  let s := sym_at l (place (lmsb l) (llsb l) i) in
  (lw l <= 64 -> (exists r, logic_get_c l i = Ok r /\ ltyped r 1 false /\ sym_at r 0 = s) /\
     logic_x_set_const l i = Ok (match s with SX => true | _ => false end) /\ logic_z_set_const l i = Ok (match s with SZ => true | _ => false end)) /\
  (65 <= lw l -> logic_get_c l i = IllFormed /\ logic_x_set_const l i = IllFormed /\ logic_z_set_const l i = IllFormed).
Proof.
  intros V Z0 R s. destruct (get_pair l i V Z0 R) as (P & G & G'). assert (Hi : 0 <= i < lw l) by (unfold in_range, lw, bw, width, lmsb, llsb in *; lia).
  unfold logic_get_c, logic_x_set_const, logic_z_set_const. change (lsize l) with (lw l). unfold native_num. split; intros L.
  - replace (i <? lw l) with true by lia. replace (lw l <=? 64) with true by lia. cbn [andb requires].
    unfold logic_x_set, logic_z_set. rewrite G, G'. cbn [bind]. subst s. unfold sym_at. set (m := bit_at (l_xz l) _). set (v := bit_at (l_val l) _). clearbody m v.
    split; [|destruct m, v; split; reflexivity].
    exists (sym1 (sym_of v m)). destruct (sym1_spec (sym_of v m)) as (T1 & _ & T2). split; [|split; [exact T1|exact T2]].
    unfold logic_set_x, logic_set_z, logic_zero. cbn [l_val l_xz].
    destruct m, v; cbn [bind negb].
    + rewrite bit0_set_true by lia. reflexivity.
    + rewrite bit0_set_true by lia. cbn [bind]. rewrite bit0_set_false0 by lia. reflexivity.
    + reflexivity.
    + reflexivity.
  - replace (lw l <=? 64) with false by lia. rewrite andb_false_r. auto.
Qed.

Lemma const_outside b i x : vec b -> 65 <= bw b -> Z.min (bmsb b) (blsb b) = 0 -> ~ in_range (bmsb b) (blsb b) i -> bit_set_const b i x = IllFormed.
Proof.
  intros V L M R. destruct (vec_cases b V) as [(v & _ & Q & _)|(ws & E & _)]; [lia|].
  unfold bit_set_const, const_pos, big_endian. fold (rd_pos b i). destruct (in_ity TI32 (rd_pos b i)); cbn [requires]; [|reflexivity].
  destruct (in_ity TI32 _); cbn [requires bind]; [|reflexivity]. rewrite E.
  destruct (_ && _) eqn:C; [|reflexivity]. exfalso. apply R. unfold rd_pos, in_range, bsize, vsize in *. destruct (Z.leb_spec (blsb b) (bmsb b)); lia.
Qed.
Lemma const_outside_logic l i : lvec l -> 65 <= lw l -> Z.min (lmsb l) (llsb l) = 0 -> ~ in_range (lmsb l) (llsb l) i ->
  (forall x, logic_set_const l i x = IllFormed) /\ logic_set_x_const l i = IllFormed /\ logic_set_z_const l i = IllFormed.
Proof.
  intros V L Z0 R. destruct (lvec_xz_range l V) as [A B]. pose proof (lw_lvec l V) as LW. destruct V as (V & V' & _).
  assert (Q : forall x, bit_set_const (l_val l) i x = IllFormed) by (intros; now apply const_outside).
  assert (Q' : forall x, bit_set_const (l_xz l) i x = IllFormed) by (intros; apply const_outside; [exact V'|rewrite LW; exact L| |]; rewrite A, B; assumption).
  unfold logic_set_const, logic_set_x_const, logic_set_z_const. split; [|rewrite Q'; auto]. intros x. rewrite Q. destruct (0 <=? i); reflexivity.
Qed.

Lemma int_ok_test z : in_ity TI32 z = int_fits z.
Proof. unfold in_ity, int_fits. cbn. lia. Qed.
Lemma set_const_exact b i x : vec b -> int_ok i -> bit_set_const b i x =
  if negb (int_fits (slot b i) && int_fits (slot b i - Z.min (blsb b) (bmsb b))) then IllFormed
  else if small b then with_position b i x
  else let j := slot b i - Z.min (blsb b) (bmsb b) in if (0 <=? j) && (j <? bw b) then Ok (placed b j x) else IllFormed.
Proof.
  intros V Hi. unfold bit_set_const, const_pos, big_endian. fold (slot b i). cbn zeta. rewrite !int_ok_test.
  destruct (int_fits (slot b i)) eqn:F1; cbn [requires andb negb bind]; [|reflexivity]. try rewrite int_ok_test.
  destruct (int_fits (slot b i - Z.min (blsb b) (bmsb b))) eqn:F2; cbn [requires andb negb bind]; [|reflexivity].
  unfold small. destruct (Z.leb_spec (bw b) 64) as [L|L].
  - rewrite <- (set_machine b i x V L Hi). unfold bit_set, big_endian. fold (slot b i).
    destruct (vec_cases b V) as [(v & E & _)|(ws & E & Q & _)]; [|lia]. rewrite E. reflexivity.
  - pose proof (set_any b i x V Hi) as Q. unfold any_with_position, small in Q. replace (bw b <=? 64) with false in Q by lia.
    unfold bit_set, big_endian in Q. fold (slot b i) in Q.
    destruct (vec_cases b V) as [(v & _ & C & _)|(ws & E & _)]; [lia|]. rewrite E in *. change (bsize b) with (bw b) in *.
    destruct (_ && _) eqn:C; [|reflexivity]. cbn [requires]. destruct (vec_bounds b V) as (_ & _ & D).
    rewrite (u64_id (slot b i - _)) in Q by lia. rewrite Z.mod_small in Q by lia. exact Q.
Qed.

Lemma set_const_written b i x : vec b -> int_ok i -> bit_set_const b i x = const_written b i x.
Proof. apply set_const_exact. Qed.
Lemma const_logic_exact l i : lvec l -> int_ok i ->
  (forall s, (match s with S0 => logic_set_const l i false | S1 => logic_set_const l i true | SX => logic_set_x_const l i | SZ => logic_set_z_const l i end) = const_written4 l i s) /\
  bit_get_const (l_val l) i = const_read (lw l) i (position (l_val l) i) /\
  logic_x_set_const l i = const_read (lw l) i (let! m := position (l_xz l) i in if m then let! v := position (l_val l) i in Ok (negb v) else Ok false) /\
  logic_z_set_const l i = const_read (lw l) i (let! m := position (l_xz l) i in if m then position (l_val l) i else Ok false).
Proof.
  intros V Hi. pose proof (lw_lvec l V) as LW. destruct V as (V & V' & _). split.
  - intros s. unfold logic_set_const, logic_set_x_const, logic_set_z_const. rewrite !set_const_written by assumption. unfold const_written4.
    rewrite !Z.ltb_antisym. destruct s; cbn [unknown high]; rewrite ?set_const_written by assumption; destruct (0 <=? i); reflexivity.
  - unfold bit_get_const, logic_x_set_const, logic_z_set_const, const_read. change (bsize (l_val l)) with (lw l). change (lsize l) with (lw l). unfold native_num.
    destruct ((i <? lw l) && (lw l <=? 64)) eqn:C; cbn [requires]; [|auto]. rewrite !get_machine by (assumption || (change (bw (l_val l)) with (lw l); lia) || (rewrite LW; lia)). auto.
Qed.
