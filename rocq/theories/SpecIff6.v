(** Conditions for the exact theorems on printed texts. *)
From Coq Require Import ZArith List Bool.
From Verif Require Import Cpp Bit Logic Util Spec SpecText SpecPrint.
Import ListNotations.
Open Scope Z_scope.

(** the symbols of digit [i]: [k] positions, fewer at the top *)
Definition own_group (l : logic) (k i : Z) : list sym := map (fun j => sym_at l (k * i + j)) (zrange 0 (Z.min k (lw l - k * i))).
(** str() gives one character for every digit: x, z, X, Z or the digit, by the symbols the digit has *)
Definition right_digits (l : logic) (base k : Z) : Prop :=
  exists s, logic_str l [base] = Ok s /\ usual_width base (lw l) (len s) /\ forall i, 0 <= i < len s -> from_right s i = Some (group_char (own_group l k i)).
Definition every (l : logic) (a b : Z) (s : sym) : Prop := forall p, a <= p < b -> sym_at l p = s.
(** the number of characters asked for, without a minus sign; [w] is the usual number *)
Definition columns (req : request) (w : Z) : Z :=
  match req with Columns 0 => 0 | Columns r => Z.max w r | _ => w end.
