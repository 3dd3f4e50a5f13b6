(** Concrete vectors and programs for the examples and counterexamples of PropsMore.v. *)
From Coq Require Import ZArith List Bool Lia.
From Verif Require Import Cpp BigNum Bit Logic Spec ZBits BitProofs BitMain BitMain2 BitMain5 LogicProofs LogicOps LogicRed LogicArith LogicArith2
  LogicConv LogicConv2 LogicMain Client ClientProofs LawProofs More Program MoreProofs ProgramProofs.
Import ListNotations.
Open Scope Z_scope.

Definition u8_200 := bit_of_native 7 0 false 200.
Definition u8_77 := bit_of_native 7 0 false 77.
Definition u4_5 := bit_of_native 3 0 false 5.
Definition u4_6 := bit_of_native 3 0 false 6.
Definition u8_0 := bit_of_native 7 0 false 0.
Definition u70_9 := bit_of_arith 69 0 false (2 ^ 63 + 9).
(** 8 bits 10zx_0110, 4 bits 0x1z, 70 bits with an x in position 66 *)
Definition e8 := mkLogic (bit_of_native 7 0 false 166) (bit_of_native 7 0 false 48).
Definition e4 := mkLogic (bit_of_native 3 0 false 3) (bit_of_native 3 0 false 5).
Definition e70 := mkLogic u70_9 (mkBit 69 0 false (HB [0; 4])).

Definition flds := [mkField 69 62; mkField 11 8; mkField 7 0].
Definition env8 (k : nat) : bit := match k with 0%nat => u8_200 | 1%nat => u8_77 | _ => u8_0 end.
(** while (0 < v1) { v1 -= v2 << 1; if (v1 == v0) v0 = v0 / v1; else v0 = ~v0 * v2 } *)
Definition prog8 : cmd :=
  While (CLt (Var 3) (Var 1)) (Seq (Assign 1 (Sub (Var 1) (Shl (Var 2) u4_5)))
    (If (CEq (Var 1) (Var 0)) (Assign 0 (Div (Var 0) (Var 1))) (Assign 0 (Mul (Not (Var 0)) (Var 2))))).

Lemma clean_small v w : w <= 64 -> clean v w.
Proof. intros H q Hq. lia. Qed.
Lemma fields_ex : ltyped e70 70 false /\ ltidy e70 /\ Forall (field_ok 70) flds /\ (forall f g, In f flds -> In g flds -> f = g \/ apart f g) /\
  Forall (write_ok flds) [(mkField 69 62, e8); (mkField 11 8, e4); (mkField 69 62, e8)].
Proof.
  split; [conc|]. split; [conc|]. split; [repeat constructor; cbn; lia|]. split.
  - unfold flds, apart. intros f g [<-|[<-|[<-|[]]]] [<-|[<-|[<-|[]]]]; cbn; (now left) || (right; lia).
  - repeat constructor; cbn; try tauto; try (apply clean_small; cbn; lia); conc.
Qed.
Lemma slice_ref_counter : exists s v r w, typed s 8 false /\ tidy s /\ typed v 4 false /\ tidy v /\
  bit_slice_ref_c s 7 4 v = Ok r /\ bit_slice_c r 7 4 = Ok w /\ num v = 5 /\ num w <> 5.
Proof. exists (bit_zero 7 0 false), (bit_of_native 3 0 false 5), (bit_zero 7 0 false), (bit_zero 3 0 false). conc. Qed.
Lemma lnot_counter : (exists b, typed b 128 false /\ tidy b /\ bit_at b 32 = true /\ bit_lnot b = true) /\
  (exists a b, typed a 8 false /\ typed b 16 false /\ tidy a /\ tidy b /\ bit_match a b = Ok true /\ num a <> num b /\ bit_match b a = Ok false).
Proof. split; [exists (mkBit 127 0 false (HB [2 ^ 32; 0])); conc|exact equality_counter]. Qed.
Lemma lnot_ex : vec u70_9 /\ tidy u70_9 /\ visible (num u70_9) /\ vec u8_200 /\ vec u8_77 /\
  extendable u8_200 /\ extendable u8_77 /\ iwidth (hty (bw u8_77) false) <= iwidth (hty (bw u8_200) false).
Proof.
  split; [conc|]. split; [conc|]. split. { intros H. specialize (H 0 ltac:(lia)). vm_compute in H. discriminate. }
  split; [conc|]. split; [conc|]. unfold extendable. repeat split; try conc; try discriminate; vm_compute; discriminate.
Qed.
Lemma prog_ex : full_width 8 /\ usable_cmd 8 prog8 /\ good 8 env8.
Proof.
  split; [now left|]. split.
  - cbn. unfold amount. repeat split; try lia; try conc; vm_compute; discriminate.
  - intros [|[|k]]; cbn [env8]; split; conc.
Qed.
Lemma euclid_ex : full_width 8 /\ good 8 env8 /\ num (env8 3%nat) = 0.
Proof. split; [now left|]. split; [apply prog_ex|reflexivity]. Qed.
