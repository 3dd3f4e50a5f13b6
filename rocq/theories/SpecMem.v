(** Vocabulary for sequences of array writes and for the reduction of [big_num]. *)
From Coq Require Import ZArith List Bool.
From Verif Require Import Cpp Bit Logic Arr Spec SpecArr.
Import ListNotations.
Open Scope Z_scope.

(** what a sequence of writes (index, value) wrote to index [i] last *)
Fixpoint latest {V} (ws : list (Z * V)) (i : Z) : option V :=
  match ws with
  | [] => None
  | (j, v) :: r => match latest r i with Some u => Some u | None => if j =? i then Some v else None end
  end.
(** update<i, i>(v), one after the other *)
Definition write_each (t : parr_ty) (ws : list (Z * logic)) (a : logic) : outcome logic :=
  ofold (fun a w => pa_update_c t a (fst w) (fst w) (snd w)) ws a.
(** update(index, v), one after the other *)
Definition write_at (t : parr_ty) (ws : list (logic * logic)) (a : logic) : outcome logic :=
  ofold (fun a w => pa_update t a (fst w) (snd w)) ws a.
Definition write_at_bit (t : parr_ty) (ws : list (logic * bit)) (a : bit) : outcome bit :=
  ofold (fun a w => pa_update_bit t a (fst w) (snd w)) ws a.
(** the indices are [i], [i + 1], ... *)
Fixpoint ascending {V} (i : Z) (ws : list (logic * V)) : Prop :=
  match ws with [] => True | (op, _) :: r => index op i /\ ascending (i + 1) r end.
(** update<i>(v) of an unpacked array, one after the other *)
Definition write_unpacked {T V} (assign : T -> V -> outcome T) (dflt : T) (msb lsb : Z) (ws : list (Z * V)) (a : list T) : outcome (list T) :=
  ofold (fun a w => ua_update assign dflt msb lsb a (fst w) (snd w)) ws a.
(** the writes an unpacked array does not ignore: those with an index below the number of elements, whatever the declared range *)
Definition heeded {V} (msb lsb : Z) (ws : list (Z * V)) : list (Z * V) := filter (fun w => (0 <=? fst w) && (fst w <? width msb lsb)) ws.
(** the positions of [n] below the last 64-bit word *)
Definition lower (n : Z) : Z := 64 * ((n - 1) / 64).

(** Writes with run-time indices: the number of the element, the index vector and the value.  What position [p] of element [j] holds
    after them: a write ignores an index that is not smaller than the number of bits, and puts a 0 (in a 2-state array the sign of a
    negative value) into the lowest position of the next element. *)
Definition reached (t : parr_ty) (i : Z) : bool := (0 <=? i) && (i <? pa_base t * elems t).
Definition after4 (t : parr_ty) (ws : list (Z * (logic * logic))) (j p : Z) (old : sym) : sym :=
  fold_left (fun s w => if negb (reached t (fst w)) then s else if fst w =? j then sym_at (snd (snd w)) p else if (fst w + 1 =? j) && (p =? 0) then S0 else s) ws old.
Definition after2 (t : parr_ty) (ws : list (Z * (logic * bit))) (j p : Z) (old : bool) : bool :=
  fold_left (fun s w => if negb (reached t (fst w)) then s else if fst w =? j then bit_at (snd (snd w)) p
    else if (fst w + 1 =? j) && (p =? 0) then (2 <=? pa_base t) && (pa_base t <=? 64) && (value (snd (snd w)) <? 0) else s) ws old.
