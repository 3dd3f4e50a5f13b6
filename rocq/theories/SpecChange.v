(** Changing the type of the variables of a program from [bit] to [logic]. *)
From Coq Require Import ZArith List Bool.
From Verif Require Import Cpp Bit Logic Spec SpecExact SpecMachine SpecFour SpecIff2 MachineProg FourProg.
Import ListNotations.
Open Scope Z_scope.

(** the same program *)
Definition changed_un (o : un) : un4 :=
  match o with Minus => UMinus | Inv => UInv | Signed => USigned | Unsigned => UUnsigned | Slice i j => USlice i j | SliceN m i j => USliceN m i j | _ => UPlus end.
Definition changed_bin (o : bin) : bin4 :=
  match o with
  | Plus => BPlus | Less => BLess | Times => BTimes | Quot => BQuot | Rem => BRem | And => BAnd | Or => BOr | Xor => BXor
  | Shl => BShl | Shr => BShr | Ashr => BAshr | Join => BJoin
  end.
Definition changed_rel (r : rel) : bin4 := match r with REq => BEq | RNe => BNe | RLt => BLt | RLe => BLe | RGt => BGt | RGe => BGe end.
Fixpoint changed_ex (e : ex) : ex4 :=
  match e with
  | Var k => Var4 k
  | New msb lsb s z => New4 msb lsb s z
  | Un o e => Un4 (changed_un o) (changed_ex e)
  | Bin o e f => Bin4 (changed_bin o) (changed_ex e) (changed_ex f)
  end.
Definition changed_test (t : test) : test4 :=
  match t with
  | Rel r e f => Truth4 (Bin4 (changed_rel r) (changed_ex e) (changed_ex f))
  | Truth e => Truth4 (changed_ex e)
  | At e i => Truth4 (Un4 (UAt i) (changed_ex e))
  | AllOnes e => Truth4 (Un4 UAnd (changed_ex e))
  end.
Fixpoint changed (c : stmt) : stmt4 :=
  match c with
  | Skip => Skip4
  | Put k e => Put4 k (changed_ex e)
  | PutOp k o e => PutOp4 k (changed_bin o) (changed_ex e)
  | Inc k => Inc4 k
  | Dec k => Dec4 k
  | PutAt k i b => Mark4 k i (if b then S1 else S0)
  | Seq c d => Seq4 (changed c) (changed d)
  | If t c d => If4 (changed_test t) (changed c) (changed d)
  | While t c => While4 (changed_test t) (changed c)
  end.

(** The programs.  [dv]: with / and %, all vectors have at most 64 positions.
    [one = Some n]: with & | ^ ~, all vectors are unsigned, declared [n-1:0] and fill their storage; reading positions 0..n-1, r_and up to 64; [None]: any widths and bounds, with slices.
    [sg]: with signed vectors, declared [n-1:0], and to_signed; without it concatenation. *)
Section Programs.
Variable dv : bool.
Variable sg : bool.
Variable one : option Z.
Definition fitting_width (m : Z) : Prop :=
  1 <= m < 2 ^ 31 /\ (dv = true -> m <= 64) /\ match one with Some n => m = n /\ fills n | None => True end.
Definition fitting_type (msb lsb : Z) (s : bool) : Prop :=
  fitting_width (width msb lsb) /\ (sg = false \/ one <> None -> s = false) /\ (one <> None \/ s = true -> lsb = 0 /\ 0 <= msb).
Definition ordinary (b : bit) : Prop := vec b /\ fitting_type (bmsb b) (blsb b) (bsgn b).
Definition shared_un (o : un) : Prop :=
  match o with
  | Minus | Unsigned => True
  | Signed => sg = true /\ one = None
  | Inv => one <> None
  | Slice i j => one = None /\ int_ok i /\ int_ok j
  | SliceN m i j => one = None /\ fitting_width m /\ int_ok i /\ int_ok j
  | _ => False
  end.
Definition shared_bin (o : bin) : Prop :=
  match o with
  | Plus | Less | Times | Shl | Shr | Ashr => True
  | Quot | Rem => dv = true
  | And | Or | Xor => one <> None
  | Join => sg = false /\ one = None
  end.
Fixpoint shared_ex (e : ex) : Prop :=
  match e with
  | Var _ => True
  | New msb lsb s z => int_ok msb /\ int_ok lsb /\ fitting_type msb lsb s /\ - 2 ^ 63 <= z < 2 ^ 64
  | Un o e => shared_un o /\ shared_ex e
  | Bin o e f => shared_bin o /\ shared_ex e /\ shared_ex f
  end.
Definition shared_test (t : test) : Prop :=
  match t with
  | Rel _ e f => shared_ex e /\ shared_ex f
  | Truth e => shared_ex e
  | At e i => shared_ex e /\ int_ok i /\ exists n, one = Some n /\ 0 <= i < n
  | AllOnes e => shared_ex e /\ exists n, one = Some n /\ n <= 64
  end.
Fixpoint shared (c : stmt) : Prop :=
  match c with
  | Skip | Inc _ | Dec _ => True
  | Put _ e => shared_ex e
  | PutOp _ o e => shared_bin o /\ shared_ex e
  | PutAt _ i _ => int_ok i
  | Seq c d => shared c /\ shared d
  | If t c d => shared_test t /\ shared c /\ shared d
  | While t c => shared_test t /\ shared c
  end.
(** The same outcome, and results that are related by [R].  Only where the 2-state program divides by 0, which is undefined, the 4-state one may go on. *)
Definition alike {A B} (R : A -> B -> Prop) (r : outcome A) (s : outcome B) : Prop :=
  match r, s with
  | Ok x, Ok y => R x y
  | UB, UB | Fuel, Fuel | Exn, Exn | IllFormed, IllFormed => True
  | UB, _ => dv = true
  | _, _ => False
  end.
End Programs.
(** the 4-state variables hold what the 2-state variables hold, without x and z *)
Definition matching (env : state) (st : state4) : Prop := forall k, four st k = certain (env k).
