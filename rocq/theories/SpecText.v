(** Vocabulary for the theorems about parsing and formatting.  A text is the list of its character codes. *)
From Coq Require Import ZArith List Bool String.
From Verif Require Import Cpp BigNum Bit Logic Util Spec.
Import ListNotations.
Open Scope Z_scope.

(** one of the characters of a C++ string literal *)
Definition among (s : string) (c : Z) : Prop := In c (chars s).
(** the digits of a text, underscores removed *)
Definition clean (s : list Z) : list Z := filter (fun c => negb (c =? 95)) s.
(** the conventional value of a digit: 0-9, A-F, a-f *)
Definition digit_value (c : Z) : Z :=
  if (48 <=? c) && (c <=? 57) then c - 48
  else if (65 <=? c) && (c <=? 70) then c - 55
  else if (97 <=? c) && (c <=? 102) then c - 87
  else 0.
(** position [j] of a digit; an x or z digit is x or z in all its positions *)
Definition digit_sym (c j : Z) : sym :=
  if (c =? 120) || (c =? 88) then SX
  else if (c =? 122) || (c =? 90) then SZ
  else sym_of_bool (Z.testbit (digit_value c) j).
(** position [p] of the vector written [s] with [k]-bit digits, most significant digit first *)
Definition text_sym (k : Z) (s : list Z) (p : Z) : sym :=
  match nth_error (rev (clean s)) (Z.to_nat (p / k)) with
  | Some c => digit_sym c (p mod k)
  | None => S0
  end.
(** the number written [s] in base [b], most significant digit first *)
Definition numeral_value (b : Z) (s : list Z) : Z := fold_left (fun a c => a * b + digit_value c) (clean s) 0.

(** [pre ' size base digits]: the literal with digits [s] *)
Definition literal (pre size : list Z) (base : Z) (s : list Z) : list Z := pre ++ 39 :: size ++ base :: s.
Definition prefix_ok (pre size : list Z) : Prop := ~ In 39 pre /\ Forall (among "0123456789") size.

(** the length of a text *)
Definition len (s : list Z) : Z := Z.of_nat (List.length s).

(** the usual numeral of [v] in base [b], most significant digit first, 0 being "0" *)
Definition is_numeral (b v : Z) (s : list Z) : Prop :=
  numeral_value b s = v /\ s <> [] /\ (hd 0 s = 48 -> s = [48]) /\ Forall (fun c => among "0123456789abcdef" c /\ digit_value c < b) s.
(** the character of a symbol *)
Definition sym_char (s : sym) : Z := match s with S0 => 48 | S1 => 49 | SX => 120 | SZ => 122 end.

(** binary, octal and hexadecimal literals and the number of positions of a digit *)
Definition pow2_base (base k : Z) : Prop := (among "bB" base /\ k = 1) \/ (among "oO" base /\ k = 3) \/ (among "hH" base /\ k = 4).
(** the digits the library reads right: lower-case x and z only in binary, no lower-case hexadecimal digits *)
Definition digits_ok (k : Z) (s : list Z) : Prop :=
  Forall (among (if (k =? 1)%Z then "01xz_" else if (k =? 3)%Z then "01234567xXzZ_" else "0123456789ABCDEFxXzZ_")%string) s.
(** the same without x and z *)
Definition number_ok (k : Z) (s : list Z) : Prop :=
  Forall (among (if (k =? 1)%Z then "01_" else if (k =? 3)%Z then "01234567_" else "0123456789ABCDEF_")%string) s.
(** the digits start in the low 64 positions; a text does not begin with an underscore *)
Definition fits (k : Z) (s : list Z) : Prop := (len (clean s) - 1) * k < 64 /\ hd 0 s <> 95.
Definition no_underscore (s : list Z) : Prop := Forall (fun c => c <> 95) s.
(** a vector of one position takes any non-zero number as 1 *)
Definition narrow_ok (n k : Z) (s : list Z) : Prop := n = 1 -> forall p, 1 <= p -> text_sym k s p = S0.

(** text without x and z *)
Definition plain_digits (k : Z) (s : list Z) : Prop := Forall (fun c => c = 95 \/ (0 <= digit_value c < 2 ^ k /\ forall j, digit_sym c j = sym_of_bool (Z.testbit (digit_value c) j))) s.
(** how a 2-state vector reads a symbol: x is 0, z is 1 *)
Definition sym_val (s : sym) : bool := match s with S1 | SZ => true | _ => false end.

(** * formatting *)
(** a format string: an optional field width, a base character, anything *)
Definition format (fmt : list Z) (width : option Z) (base : Z) : Prop :=
  exists ds rest, fmt = ds ++ base :: rest /\ Forall (among "0123456789") ds /\ ~ among "0123456789" base /\
    width = (match ds with [] => None | _ => Some (numeral_value 10 ds) end) /\ numeral_value 10 ds < 2 ^ 64.
(** the usual number of characters of an [n]-bit vector: one per position, per three, per four, per eight positions;
    the number of digits of the largest value for decimals *)
Definition usual_width (base n w : Z) : Prop :=
  (among "bB" base /\ w = n) \/ (among "oO" base /\ 3 * (w - 1) < n <= 3 * w) \/ (among "xXhH" base /\ 4 * (w - 1) < n <= 4 * w) \/
  (among "sS" base /\ 8 * (w - 1) < n <= 8 * w) \/ (among "dD" base /\ n <> 128 /\ if n <? 128 then 10 ^ (w - 1) <= 2 ^ n - 1 < 10 ^ w else w = n).
(** the field: the usual width, or more when asked for, or none when 0 is asked for *)
Definition field_width (width : option Z) (w : Z) : Z := match width with None => w | Some r => if r =? 0 then 0 else Z.max w r end.
Definition pad_char (base : Z) : Z := if existsb (Z.eqb base) (chars "dDsS") then 32 else 48.
(** [s] is [core] filled up on the left to [w] characters *)
Definition padded (w c : Z) (core s : list Z) : Prop := s = repeat c (Z.to_nat (w - len core)) ++ core.
(** character [i] of a text from the right *)
Definition from_right (s : list Z) (i : Z) : option Z := nth_error (rev s) (Z.to_nat i).
(** one more character for the minus sign of a decimal *)
Definition minus (base : Z) (core : list Z) : Z := if existsb (Z.eqb base) (chars "dD") && (hd 0 core =? 45) then 1 else 0.
(** the character of a group of symbols, lowest first: a digit when all are known; x or z when all are x or all are
    z; otherwise X when there is an x, else Z *)
Definition group_value (g : list sym) : Z := fold_right (fun s v => b2z (sym_val s) + 2 * v) 0 g.
Definition is_x (s : sym) : bool := match s with SX => true | _ => false end.
Definition is_z (s : sym) : bool := match s with SZ => true | _ => false end.
Definition group_char (g : list sym) : Z :=
  if forallb (fun s => negb (unknown s)) g then nth (Z.to_nat (group_value g)) (chars "0123456789abcdef") 0
  else if forallb is_x g then 120 else if forallb is_z g then 122 else if existsb is_x g then 88 else 90.
(** the [i]-th group of [k] symbols; positions beyond the vector are 0 *)
Definition group (l : logic) (k i : Z) : list sym := map (fun j => sym_at l (k * i + j)) (zrange 0 k).
(** format bases and the number of positions of a digit *)
Definition pow2_fmt (base k : Z) : Prop := (among "bB" base /\ k = 1) \/ (among "oO" base /\ k = 3) \/ (among "xXhH" base /\ k = 4).
(** the storage above the declared width does not show: the digits end with the vector, or with the storage, or the
    storage above is clear (never for negative signed vectors) *)
Definition clear_top (b : bit) : Prop := tidy b /\ (bsgn b = true -> bw b <= 64 -> bit_at b (bw b - 1) = false).
Definition top_ok (l : logic) (k : Z) : Prop := lw l mod k = 0 \/ lw l = 64 \/ (clear_top (l_val l) /\ tidy (l_xz l)).
(** the usual decimal numeral of an integer *)
Definition decimal_text (v : Z) (s : list Z) : Prop := if v <? 0 then exists t, s = 45 :: t /\ is_numeral 10 (- v) t else is_numeral 10 v s.
(** signed decimals: at least two bits; the most negative value of a 32-bit or 64-bit vector is left out *)
Definition prints (b : bit) : Prop := bsgn b = true -> 2 <= bw b /\ (bw b = 32 \/ bw b = 64 -> value b <> - 2 ^ (bw b - 1)).
(** every hexadecimal digit is a decimal digit, all x or all z *)
Definition plain_groups (l : logic) : Prop :=
  forall i, 0 <= i -> 4 * i < lw l -> (exists d, 0 <= d < 10 /\ forall j, 0 <= j < 4 -> sym_at l (4 * i + j) = sym_of_bool (Z.testbit d j)) \/
    (forall j, 0 <= j < 4 -> sym_at l (4 * i + j) = SX) \/ (forall j, 0 <= j < 4 -> sym_at l (4 * i + j) = SZ).
