(** A type checker for programs over 2-state and 4-state vectors: which expressions compile, and the type of their result, told
    from the declared types of the variables alone.  It is written from the declared bounds and signednesses; no stored number,
    and no operation of the model, occurs here.  [None] and [false] say that the C++ compiler rejects the program. *)
From Coq Require Import ZArith List Bool.
From Verif Require Import Cpp Bit Logic Spec MachineProg WideProg FourProg.
Import ListNotations.
Open Scope Z_scope.

(** the template arguments of [bit<msb, lsb, signed>] and [logic<msb, lsb, signed>] *)
Record ty := mkTy { t_msb : Z; t_lsb : Z; t_sgn : bool }.
Definition ty_bit (b : bit) : ty := mkTy (bmsb b) (blsb b) (bsgn b).
Definition ty_logic (l : logic) : ty := ty_bit (l_val l).
Definition tw (t : ty) : Z := width (t_msb t) (t_lsb t).
(** held in a machine integer *)
Definition narrow (t : ty) : bool := tw t <=? 64.
(** declared [n-1:0] *)
Definition ordinary (t : ty) : bool := (t_lsb t =? 0) && (0 <=? t_msb t).
(** the type [n-1:0] *)
Definition range (n : Z) (s : bool) : ty := mkTy (n - 1) 0 s.
Definition check (ok : bool) (t : ty) : option ty := if ok then Some t else None.

(** * 2-state *)
(** the operators that bring both operands to the larger width *)
Definition pairing (t u : ty) : bool :=
  if tw t =? tw u then t_lsb u <=? t_msb u
  else let w := if tw t <? tw u then u else t in t_sgn w || ordinary w.
Definition joint (t u : ty) : ty := range (Z.max (tw t) (tw u)) (t_sgn t && t_sgn u).
(** a slice with constant indices *)
Definition sliceable (t : ty) (i j : Z) : bool :=
  (Z.max i j <? tw t) && (t_lsb t <=? j) && (narrow t || ((0 <=? Z.min i j) && negb (Z.abs (i - j) + 1 =? 65))).
Definition type_un (o : un) (t : ty) : option ty :=
  match o with
  | Minus => check (narrow t) t
  | Inv | TwoC | Unsigned => Some (range (tw t) false)
  | Mask => Some t
  | Signed => Some (range (tw t) true)
  | Resize m =>
      check (if tw t <? m then true else if m =? tw t then t_sgn t || ordinary t else negb (t_sgn t) && sliceable t (m - 1) 0)
        (range m (t_sgn t))
  | Slice i j => check (sliceable t i j) (range (Z.abs (i - j) + 1) false)
  | SliceN m _ _ => check (negb (narrow t) || (m <=? 64)) (range m false)
  end.
Definition type_bin (o : bin) (t u : ty) : option ty :=
  match o with
  | Plus | Less | Times | And | Or | Xor => check (pairing t u) (joint t u)
  | Quot | Rem => check (pairing t u && ((narrow t && narrow u) || negb (t_sgn t))) (joint t u)
  | Shl | Shr | Ashr => check (negb (narrow t) || narrow u) (range (tw t) (t_sgn t && t_sgn u))
  | Join => check (tw t + tw u <? 64) (range (tw t + tw u) false)
  end.
(** whether [a = b] compiles *)
Definition type_assign (t u : ty) : bool := if narrow t then narrow u else tw u =? tw t.
(** whether [a o= b] compiles *)
Definition type_put (o : bin) (t u : ty) : bool :=
  match o with
  | And | Or | Xor | Shl | Shr =>
      ordinary t && (negb (t_sgn t) || t_sgn u) &&
      match type_bin o t u with Some r => type_assign t r | None => false end
  | _ => false
  end.
(** whether a comparison compiles *)
Definition type_equal (t u : ty) : bool := narrow t || narrow u || negb (t_sgn t && t_sgn u) || (tw t <? tw u).
Definition type_order (t u : ty) : bool := narrow t || negb (narrow u).
Definition type_rel (r : rel) (t u : ty) : bool :=
  match r with
  | REq | RNe => type_equal t u
  | RLt | RGt => type_order t u
  | RLe => type_order t u && (narrow t || type_equal u t)
  | RGe => type_order t u && (narrow t || type_equal t u)
  end.
Definition type_step (t : ty) : bool := (tw t =? 1) || t_sgn t || ordinary t.

Fixpoint type_ex (G : nat -> ty) (e : ex) : option ty :=
  match e with
  | Var k => Some (G k)
  | New msb lsb s _ => Some (mkTy msb lsb s)
  | Un o e => match type_ex G e with Some t => type_un o t | None => None end
  | Bin o e f => match type_ex G e, type_ex G f with Some t, Some u => type_bin o t u | _, _ => None end
  end.
Definition type_test (G : nat -> ty) (t : test) : bool :=
  match t with
  | Rel r e f => match type_ex G e, type_ex G f with Some t, Some u => type_rel r t u | _, _ => false end
  | Truth e | At e _ | AllOnes e => match type_ex G e with Some _ => true | None => false end
  end.
Fixpoint type_stmt (G : nat -> ty) (c : stmt) : bool :=
  match c with
  | Skip | PutAt _ _ _ => true
  | Put k e => match type_ex G e with Some t => type_assign (G k) t | None => false end
  | PutOp k o e => match type_ex G e with Some t => type_put o (G k) t | None => false end
  | Inc k | Dec k => type_step (G k)
  | Seq c d => type_stmt G c && type_stmt G d
  | If t c d => type_test G t && type_stmt G c && type_stmt G d
  | While t c => type_test G t && type_stmt G c
  end.

(** * 4-state *)
(** the mask of x and z is an unsigned vector with the same bounds *)
Definition mask_ty (t : ty) : ty := mkTy (t_msb t) (t_lsb t) false.
Definition one_ty : ty := mkTy 0 0 false.
Definition fitting_widths (t u : ty) : bool := (tw t =? tw u) || ordinary (if tw t <? tw u then u else t).
Definition tabled (t u : ty) : bool :=
  (if tw t =? tw u then (t_lsb t <=? t_msb t) && (t_lsb u <=? t_msb u) else fitting_widths t u) && negb (t_sgn t && t_sgn u).
Definition type_un4 (o : un4) (t : ty) : option ty :=
  match o with
  | UMinus => check (narrow t) t
  | UPlus => Some t
  | UInv | UUnsigned => Some (range (tw t) false)
  | USigned => Some (range (tw t) true)
  | UWiden m => check ((tw t <? m) || ((m =? tw t) && ordinary t)) (range m (t_sgn t))
  | USlice i j => check (sliceable t i j) (range (Z.abs (i - j) + 1) false)
  | USliceN m _ _ => check (negb (narrow t) || (m <=? 64)) (range m false)
  | UNot | UAt _ | UAnd | UOr | UNand | UNor => Some one_ty
  | UXor | UXnor => check (negb (t_sgn t) && (1 <? tw t) && narrow t) one_ty
  end.
Definition type_bin4 (o : bin4) (t u : ty) : option ty :=
  match o with
  | BPlus | BLess | BTimes => check (fitting_widths t u && pairing t u) (joint t u)
  | BQuot | BRem => check (fitting_widths t u && pairing t u && ((narrow t && narrow u) || negb (t_sgn t))) (joint t u)
  | BAnd | BOr => check (tabled t u) (range (Z.max (tw t) (tw u)) false)
  | BXor => check (if tw t =? tw u then (t_lsb u <=? t_msb u) && negb (t_sgn t && t_sgn u) else tabled t u) (range (Z.max (tw t) (tw u)) false)
  | BShl | BShr | BAshr => check (negb (narrow t) || narrow u) (range (tw t) (t_sgn t && t_sgn u))
  | BEq => check (type_rel REq t u) one_ty
  | BNe => check (type_rel RNe t u) one_ty
  | BLt => check (type_rel RLt t u) one_ty
  | BLe => check (type_rel RLe t u) one_ty
  | BGt => check (type_rel RGt t u) one_ty
  | BGe => check (type_rel RGe t u) one_ty
  | BJoin => check (tw t + tw u <? 64) (range (tw t + tw u) (t_sgn t))
  end.
Definition type_put4 (o : bin4) (t u : ty) : bool :=
  match o with
  | BAnd | BOr | BXor | BShl | BShr =>
      ordinary t && (negb (t_sgn t) || t_sgn u) &&
      match type_bin4 o t u with Some r => type_assign t r | None => false end
  | _ => false
  end.
Definition type_step4 (t : ty) : bool := (tw t =? 1) || ordinary t.
Fixpoint type_ex4 (G H : nat -> ty) (e : ex4) : option ty :=
  match e with
  | Var4 k => Some (H k)
  | New4 msb lsb s _ | Unknown4 msb lsb s => Some (mkTy msb lsb s)
  | Of2 msb lsb s e =>
      match type_ex G e with
      | Some t => check ((t_msb t =? msb) && (t_lsb t =? lsb) && (t_sgn t || negb s)) (mkTy msb lsb s)
      | None => None
      end
  | Un4 o e => match type_ex4 G H e with Some t => type_un4 o t | None => None end
  | Bin4 o e f => match type_ex4 G H e, type_ex4 G H f with Some t, Some u => type_bin4 o t u | _, _ => None end
  | Join2 e f =>
      match type_ex4 G H e, type_ex G f with
      | Some t, Some u => check (tw t + tw u <? 64) (range (tw t + tw u) (t_sgn t))
      | _, _ => None
      end
  end.
Definition type_test4 (G H : nat -> ty) (t : test4) : bool :=
  match t with
  | Truth4 e => match type_ex4 G H e with Some _ => true | None => false end
  | Match4 e f | Mismatch4 e f => match type_ex4 G H e, type_ex4 G H f with Some t, Some u => type_equal t u | _, _ => false end
  | Test2 t => type_test G t
  end.
Fixpoint type_stmt4 (G H : nat -> ty) (c : stmt4) : bool :=
  match c with
  | Skip4 | Mark4 _ _ _ => true
  | Put4 k e => match type_ex4 G H e with Some t => type_assign (H k) t | None => false end
  | PutOp4 k o e => match type_ex4 G H e with Some t => type_put4 o (H k) t | None => false end
  | Inc4 k | Dec4 k => type_step4 (H k)
  | PutAt4 _ _ e => match type_ex4 G H e with Some t => (t_msb t =? 0) && (t_lsb t =? 0) && negb (t_sgn t) | None => false end
  | Two c => type_stmt G c
  | Seq4 c d => type_stmt4 G H c && type_stmt4 G H d
  | If4 t c d => type_test4 G H t && type_stmt4 G H c && type_stmt4 G H d
  | While4 t c => type_test4 G H t && type_stmt4 G H c
  end.

(** * what the checker promises *)
(** a computation of a result of type [t]: the library accepts it, and what it yields has that type *)
Definition well_typed {A} (type : A -> ty) (t : ty) (o : outcome A) : Prop := o <> IllFormed /\ forall a, o = Ok a -> type a = t.
(** a computation the library never completes *)
Definition rejected {A} (o : outcome A) : Prop := forall a, o <> Ok a.
(** the variables have their declared types *)
Definition declared2 (G : nat -> ty) (st : state) : Prop := forall k, vec (st k) /\ ty_bit (st k) = G k.
Definition declared4 (G H : nat -> ty) (st : state4) : Prop :=
  declared2 G (two st) /\ forall k, lvec (four st k) /\ ty_logic (four st k) = H k.
