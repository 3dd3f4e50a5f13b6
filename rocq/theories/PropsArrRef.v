(** Packed arrays: element reads equal to a reference machine for every index vector and all contents (C144), and exactly when they
    give the element, or nothing for an index without an element (C51).
    Exactly when element writes (C52) and accesses to ranges of elements (C53) are right. *)
From Coq Require Import ZArith List Bool Lia.
From Verif Require Import Cpp BigNum Bit Logic Arr Spec SpecArr SpecExact SpecMachine SpecWide SpecFour SpecArrRef BitMain LogicProofs LogicRed LogicMain ArrProofs TextMain SpecIff3 ArrRef ArrRef2 ArrRef3.
Import ListNotations.
Open Scope Z_scope.

(** C51: reading an element of a 4-state array *)
Theorem C51_exact : forall t a op i, arr4 t a -> ltidy a -> index op i -> (lw op = 1 -> lsgn op = false) -> element t i ->
  ((exists r, pa_get t a op = Ok r /\ forall p, 0 <= p < pa_base t -> sym_at r p = sym_at a (start t i + p)) <-> reads_right4 t a i) /\
  (pa_get t a op = UB <-> 0 <= i < bits t /\ 2 <= bits t <= 64 /\ storage (bits t) <= start t i + pa_base t).
Proof. exact read4_iff. Qed.
Print Assumptions C51_exact.
(** an index without an element reads all x *)
Theorem C51_no_element_exact : forall t a op i, arr4 t a -> ltidy a -> index op i -> (lw op = 1 -> lsgn op = false) -> ~ element t i ->
  (exists r, pa_get t a op = Ok r /\ all_x r) <-> reads_nothing4 t a i.
Proof. exact read4_none_iff. Qed.
Print Assumptions C51_no_element_exact.
(** the same for 2-state arrays *)
Theorem C51_bit_exact : forall t a op i, arr2 t a -> tidy a -> index op i -> (lw op = 1 -> lsgn op = false) -> element t i ->
  ((exists r, pa_get_bit t a op = Ok r /\ forall p, 0 <= p < pa_base t -> bit_at r p = bit_at a (start t i + p)) <-> reads_right2 t a i) /\
  (pa_get_bit t a op = UB <-> 0 <= i < bits t /\ 2 <= bits t <= 64 /\ storage (bits t) <= start t i + pa_base t).
Proof. exact read2_iff. Qed.
Print Assumptions C51_bit_exact.
Theorem C51_bit_no_element_exact : forall t a op i, arr2 t a -> tidy a -> index op i -> (lw op = 1 -> lsgn op = false) -> ~ element t i ->
  (exists r, pa_get_bit t a op = Ok r /\ num r = 0) <-> reads_nothing2 t a i.
Proof. exact read2_none_iff. Qed.
Print Assumptions C51_bit_no_element_exact.
Example C51_exact_ex : let t := mkParrTy 8 false 3 0 in let w := mkParrTy 16 false 4 0 in
  arr4 t (k4 32 7) /\ ltidy (k4 32 7) /\ arr2 t (l_val (k4 32 7)) /\ tidy (l_val (k4 32 7)) /\ index (k4 8 2) 2 /\ element t 2 /\ lw (k4 8 2) <> 1 /\
  reads_right4 t (k4 32 7) 2 /\ reads_right2 t (l_val (k4 32 7)) 2 /\ index (k4 8 3) 3 /\ element t 3 /\ ~ reads_right4 t (k4 32 7) 3 /\
  arr4 w (k80 5 9) /\ reads_right4 w (k80 5 9) 4 /\ ~ element w 7 /\ ~ reads_nothing4 w (k80 5 9) 7 /\ reads_nothing2 w (l_val (k80 5 9)) 7 /\ reads_nothing4 w (k80 5 9) 90.
Proof. cbv zeta. do 4 (split; [conc|]). split; [idx|]. split; [conc|]. split; [conc|].
  split; [right; right; split; [conc|]; split; [conc|]; left; vm_compute; discriminate|]. split; [right; right; split; [conc|]; split; [conc|]; left; vm_compute; discriminate|]. split; [idx|]. split; [conc|].
  split; [intros [A|[(A & _)|(_ & A & _)]]; revert A; vm_compute; try discriminate; intros A; now apply A|]. split; [conc|]. split; [left; vm_compute; discriminate|].
  split; [intros [_ A]; revert A; vm_compute; intros A; now apply A|].
  split; [intros [A|(_ & A & _)]; [apply A; vm_compute; split; [discriminate|reflexivity]|discriminate A]|]. split; [right; left; split; [conc|]; split; [conc|]; left; vm_compute; discriminate|].
  left. intros [_ A]. vm_compute in A. discriminate A. Qed.

(** C52: writing an element of a 4-state array *)
Theorem C52_exact : forall t a op i v sv, arr4 t a -> index op i -> (lw op = 1 -> lsgn op = false) -> element t i -> ltyped v (pa_base t) sv ->
  ((exists r, pa_update t a op v = Ok r /\ (forall p, 0 <= p < pa_base t -> sym_at r (start t i + p) = sym_at v p) /\
      (forall q, 0 <= q < bits t -> ~ start t i <= q < start t i + pa_base t -> sym_at r q = sym_at a q)) <-> writes_right4 t a v i) /\
  (pa_update t a op v = UB <-> 0 <= i < bits t /\ undefined_write4 t v i).
Proof. exact write4_iff. Qed.
Print Assumptions C52_exact.
(** an index without an element leaves the array unchanged *)
Theorem C52_no_element_exact : forall t a op i v sv, arr4 t a -> index op i -> (lw op = 1 -> lsgn op = false) -> ~ element t i -> ltyped v (pa_base t) sv ->
  (exists r, pa_update t a op v = Ok r /\ forall q, 0 <= q < bits t -> sym_at r q = sym_at a q) <-> writes_nothing4 t a v i.
Proof. exact write4_none_iff. Qed.
Print Assumptions C52_no_element_exact.
(** the same for 2-state arrays *)
Theorem C52_bit_exact : forall t a op i v sv, arr2 t a -> index op i -> (lw op = 1 -> lsgn op = false) -> element t i -> typed v (pa_base t) sv -> tidy v ->
  ((exists r, pa_update_bit t a op v = Ok r /\ (forall p, 0 <= p < pa_base t -> bit_at r (start t i + p) = bit_at v p) /\
      (forall q, 0 <= q < bits t -> ~ start t i <= q < start t i + pa_base t -> bit_at r q = bit_at a q)) <-> writes_right2 t a v i) /\
  (pa_update_bit t a op v = UB <-> 0 <= i < bits t /\ undefined_write2 t i).
Proof. exact write2_iff. Qed.
Print Assumptions C52_bit_exact.
Theorem C52_bit_no_element_exact : forall t a op i v sv, arr2 t a -> index op i -> (lw op = 1 -> lsgn op = false) -> ~ element t i -> typed v (pa_base t) sv -> tidy v ->
  (exists r, pa_update_bit t a op v = Ok r /\ forall q, 0 <= q < bits t -> bit_at r q = bit_at a q) <-> writes_nothing2 t a v i.
Proof. exact write2_none_iff. Qed.
Print Assumptions C52_bit_no_element_exact.
Example C52_exact_ex : let t := mkParrTy 8 false 3 0 in let w := mkParrTy 16 false 4 0 in
  arr4 t (k4 32 7) /\ arr2 t (l_val (k4 32 7)) /\ index (k4 8 2) 2 /\ element t 2 /\ ltyped (k4 8 255) 8 false /\ typed (l_val (k4 8 255)) 8 false /\ tidy (l_val (k4 8 255)) /\
  writes_right4 t (k4 32 7) (k4 8 255) 2 /\ writes_right2 t (l_val (k4 32 7)) (l_val (k4 8 255)) 2 /\ ~ writes_right4 t (k4 32 (2 ^ 24)) (k4 8 255) 2 /\
  ~ element w 7 /\ writes_nothing4 w (k80 5 9) (k4 16 7) 7 /\ writes_nothing2 w (l_val (k80 5 9)) (l_val (k4 16 7)) 7 /\ beyond (mkBit 7 0 true (HN (-3))) 8 = true.
Proof. cbv zeta. do 2 (split; [conc|]). split; [idx|]. do 4 (split; [conc|]).
  assert (U : forall v i, ~ lost v 8 /\ (lower (mkParrTy 8 false 3 0) <= i < 4) -> ~ undefined_write4 (mkParrTy 8 false 3 0) v i).
  { intros v i [L R] [X|(_ & [X|X])]; [exact (L X)|lia|]. unfold start in X. cbn in *. lia. }
  assert (L8 : forall v, ~ lost v 8) by (intros v (q & Q & _); lia). assert (L16 : forall v, ~ lost v 16) by (intros v (q & Q & _); lia).
  split; [split; [apply U; split; [apply L8|cbn; lia]|intros _; reflexivity]|]. split; [split; [intros [X|[X|(_ & [X|X])]]; try discriminate X; apply X; reflexivity|intros _; reflexivity]|].
  split; [intros [_ X]; specialize (X ltac:(reflexivity)); revert X; vm_compute; discriminate|]. split; [intros [_ X]; revert X; vm_compute; intros X; now apply X|].
  split; [right; split; [reflexivity|]; split; [intros [X|(X & _)]; [exact (L16 _ X)|apply X; reflexivity]|]; split; [intros X; discriminate X|intros X; discriminate X]|].
  split; [right; split; [reflexivity|]; split; [intros [X|[X|(X & _)]]; try discriminate X; apply X; reflexivity|]; split; [intros X; discriminate X|intros X; discriminate X]|]. reflexivity. Qed.

(** C53: reading a range of elements *)
Theorem C53_exact : forall t a hi lo st w, arr4 t a -> tidy (l_val a) -> element t hi -> element t lo -> st = start t (Z.min hi lo) -> w = (Z.abs (hi - lo) + 1) * pa_base t ->
  (exists r, pa_slice_array t a hi lo = Ok r /\ forall p, 0 <= p < w -> sym_at r p = sym_at a (st + p)) <-> range_right4 t a st w.
Proof. exact range_read4_iff. Qed.
Print Assumptions C53_exact.
(** of a 2-state array (the instance exists up to 64 bits) *)
Theorem C53_bit_exact : forall t a hi lo st w, arr2 t a -> tidy a -> element t hi -> element t lo -> st = start t (Z.min hi lo) -> w = (Z.abs (hi - lo) + 1) * pa_base t ->
  (exists r, pa_slice_array_bit t a hi lo = Ok r /\ forall p, 0 <= p < w -> bit_at r p = bit_at a (st + p)) <-> range_right2 t a st w.
Proof. exact range_read2_iff. Qed.
Print Assumptions C53_bit_exact.
(** and writing it *)
Theorem C53_write_exact : forall t a hi lo v k sv st w, arr4 t a -> element t hi -> element t lo -> st = start t (Z.min hi lo) -> w = (Z.abs (hi - lo) + 1) * pa_base t -> 1 <= k -> ltyped v k sv ->
  ((exists r, pa_update_c t a hi lo v = Ok r /\ (forall p, 0 <= p < w -> sym_at r (st + p) = if p <? k then sym_at v p else S0) /\ forall q, 0 <= q < bits t -> ~ st <= q < st + w -> sym_at r q = sym_at a q) <->
   ~ lost v (Z.min k w)) /\ (pa_update_c t a hi lo v = UB <-> lost v (Z.min k w)).
Proof. exact range_write4_iff. Qed.
Print Assumptions C53_write_exact.
Example C53_exact_ex : let t := mkParrTy 16 false 14 10 in let u := mkParrTy 4 true 1 0 in arr4 t (k80 5 9) /\ tidy (l_val (k80 5 9)) /\ element t 13 /\ element t 12 /\ 32 = start t (Z.min 13 12) /\ 32 = (Z.abs (13 - 12) + 1) * pa_base t /\
  range_right4 t (k80 5 9) 32 32 /\ arr2 u (mkBit 7 0 true (HN 5)) /\ range_right2 u (mkBit 7 0 true (HN 5)) 0 4 /\ ~ range_right2 u (mkBit 7 0 true (HN 5)) 4 4 /\ ltyped (k4 32 7) 32 false /\ ~ lost (k4 32 7) (Z.min 32 32).
Proof. cbv zeta. do 6 (split; [conc|]). split; [right; discriminate|]. split; [conc|]. split; [split; [vm_compute; discriminate|]; intros _; right; split; [vm_compute; discriminate|discriminate]|].
  split; [intros [_ X]; destruct (X eq_refl) as [Y|[Y _]]; [discriminate Y|apply Y; reflexivity]|]. split; [conc|]. intros (q & Q & _). cbn in Q. lia. Qed.

(** C144: reading from a 4-state array *)
Theorem C144_read : forall t a op, arr4 t a -> lvec op -> pa_get t a op = ref_read4 t a op.
Proof. exact read4_ref. Qed.
Print Assumptions C144_read.
(** and from a 2-state array *)
Theorem C144_read_bit : forall t a op, arr2 t a -> lvec op -> pa_get_bit t a op = ref_read2 t a op.
Proof. exact read2_ref. Qed.
Print Assumptions C144_read_bit.
Example C144_ex : arr4 (mkParrTy 16 false 4 0) (k80 5 9) /\ lvec (k4 8 200) /\ arr2 (mkParrTy 2 false 3 0) (mkBit 7 0 false (HN 165)) /\
  ref_read4 (mkParrTy 16 false 4 0) (k80 5 9) (k4 8 4) = Ok (k4 16 9) /\ ref_read2 (mkParrTy 2 false 3 0) (mkBit 7 0 false (HN 165)) (k4 8 1) = Ok (mkBit 1 0 false (HN 1)).
Proof. conc. Qed.

