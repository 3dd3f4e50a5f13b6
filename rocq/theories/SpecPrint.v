(** What str() gives for an arbitrary vector and an arbitrary format: a reference printer on the stored numbers.  Nothing here refers to
    the formatting loops of the model. *)
From Coq Require Import ZArith List Bool String.
From Verif Require Import Cpp Bit Logic Util Spec SpecText SpecExact SpecMachine SpecWide SpecRead.
Import ListNotations.
Open Scope Z_scope.

(** * numerals *)
Definition digit_char (d : Z) : Z := nth (Z.to_nat d) (chars "0123456789abcdef") 0.
Definition digit_count (b v : Z) : Z := 1 + len (filter (fun i => b ^ i <=? v) (zrange 1 (Z.log2 v + 1))).
(** the usual digits of [v], the rightmost first *)
Definition digits (b v : Z) : list Z := map (fun i => digit_char (v / b ^ i mod b)) (zrange 0 (digit_count b v)).

(** * formats *)
(** what a format asks for: the natural width, [r] characters, or nothing that is a number (the library throws) *)
Inductive request := Natural | Columns (r : Z) | Bad.
Definition asked_for (ds : list Z) : request :=
  match ds with [] => Bad | _ => if numeral_value 10 ds <? 2 ^ 64 then Columns (numeral_value 10 ds) else Bad end.
(** a format is a number of columns, possibly missing, and a base, by default s; what follows the base is ignored *)
Inductive asks : list Z -> request -> Z -> Prop :=
| Bare (base : Z) (rest : list Z) : ~ among "0123456789" base -> asks (base :: rest) Natural base
| Sized (ds : list Z) (base : Z) (rest : list Z) :
    ds <> [] -> Forall (among "0123456789") ds -> ~ among "0123456789" base -> asks (ds ++ base :: rest) (asked_for ds) base
| Digits (ds : list Z) : Forall (among "0123456789") ds -> asks ds (asked_for ds) 115.

(** the natural number of characters for [n] positions; 128-bit decimals are undefined *)
Definition natural (base n : Z) : outcome Z :=
  if member "oO" base then Ok ((n + 2) / 3)
  else if member "xXhH" base then Ok ((n + 3) / 4)
  else if member "sS" base then Ok ((n + 7) / 8)
  else if member "dD" base then (if n <? 128 then Ok (digit_count 10 (2 ^ n - 1)) else if n =? 128 then UB else Ok n)
  else Ok n.
(** the text whose characters, the rightmost first, are [cs], with a minus sign and filled up on the left *)
Definition layout (req : request) (base w : Z) (minus : bool) (cs : list Z) : list Z :=
  let body := (if minus then [45] else []) ++ rev cs in
  let columns := match req with
                 | Columns 0 => 0
                 | Columns r => Z.max w r + (if minus then 1 else 0)
                 | _ => w + (if minus then 1 else 0)
                 end in
  repeat (if member "dDsS" base then 32 else 48) (Z.to_nat (columns - len body)) ++ body.

(** * the characters of one piece of at most 64 positions, the rightmost first *)
(** 2-state: the digits of octals and hexadecimals come in the wrong order, characters as decimal codes, also reversed *)
Definition two_chars (base n v : Z) : outcome (list Z) :=
  if member "bB" base then Ok (map (fun i => if Z.testbit v i then 49 else 48) (zrange 0 n))
  else if member "oO" base then Ok (rev (digits 8 v))
  else if member "xXhH" base then Ok (rev (digits 16 v))
  else if member "sS" base then (if n <=? 8 then Ok (rev (digits 10 (v mod 256))) else UB)
  else if member "dD" base then Ok (digits 10 v)
  else Ok [].
(** 4-state: symbol [i] of values [v] and mask [x], the [i]-th group of [k] symbols *)
Definition symbol (v x i : Z) : sym := sym_of (Z.testbit v i) (Z.testbit x i).
Definition symbols (v x k i : Z) : list sym := map (fun j => symbol v x (k * i + j)) (zrange 0 k).
(** one character for a decimal with x or z among its [n] positions *)
Definition unknown_decimal (n m v x : Z) : Z :=
  if x =? 2 ^ m - 1 then (if v =? 0 then 120 else if v =? 2 ^ m - 1 then 122 else 88)
  else if existsb (fun i => is_x (symbol v x i)) (zrange 0 n) then 88 else 90.
Definition signed_char (c : Z) : Z := if c <? 128 then c else c - 256.
Definition four_chars (base n v x : Z) : list Z :=
  if member "bB" base then map (fun i => sym_char (symbol v x i)) (zrange 0 n)
  else if member "oO" base then map (fun i => group_char (symbols v x 3 i)) (zrange 0 ((n + 2) / 3))
  else if member "xXhH" base then map (fun i => group_char (symbols v x 4 i)) (zrange 0 ((n + 3) / 4))
  else if member "sS" base then map (fun i => signed_char (v / 2 ^ (8 * i) mod 256)) (zrange 0 ((n + 7) / 8))
  else if member "dD" base then (if x =? 0 then digits 10 v else [unknown_decimal n n v x])
  else [].

(** * wide vectors *)
Definition word_at (v i : Z) : Z := v / 2 ^ (64 * i) mod 2 ^ 64.
(** three positions for an octal digit; where they lie in two words the upper ones are laid over the lower ones, and behind the last
    word there is nothing to read *)
Definition octal_piece (n v i : Z) : outcome Z :=
  let p := 3 * i in
  let low := word_at v (p / 64) / 2 ^ (p mod 64) mod 8 in
  if p mod 64 <=? 61 then Ok low
  else if p / 64 + 1 <? words_in n then Ok (Z.lor low (word_at v (p / 64 + 1) mod 2 ^ (p mod 64 - 61)))
  else UB.
Fixpoint joined (l : list (outcome (list Z))) : outcome (list Z) :=
  match l with [] => Ok [] | c :: r => let! a := c in let! b := joined r in Ok (a ++ b) end.
(** the positions of each word: the whole words but the last one, and what remains in the last one *)
Definition in_pieces (n : Z) (f : Z -> Z -> outcome (list Z)) : outcome (list Z) :=
  joined (map (fun i => f 64 i) (zrange 0 (words_in n - 1)) ++ (if n mod 64 =? 0 then [] else [f (n mod 64) (words_in n - 1)])).
(** 2-state: every piece is laid out by itself, from left to right *)
Definition two_wide (req : request) (base n v : Z) : outcome (list Z) :=
  let piece m z := let! w := natural base m in let! cs := two_chars base m z in Ok (layout req base w false cs) in
  if member "dD" base then Ok (if v mod 2 ^ 128 =? 0 then [] else digits 10 (v mod 2 ^ 128))
  else if member "oO" base then joined (map (fun i => let! z := octal_piece n v i in piece 3 z) (zrange 0 ((n + 2) / 3)))
  else in_pieces n (fun m i => piece m (word_at v i)).
Definition four_wide (base n v x : Z) : outcome (list Z) :=
  if member "dD" base then
    Ok (if x mod 2 ^ 128 =? 0 then if v mod 2 ^ 128 =? 0 then [] else digits 10 (v mod 2 ^ 128)
        else [unknown_decimal (Z.min 128 n) 128 (v mod 2 ^ 128) (x mod 2 ^ 128)])
  else if member "oO" base then
    joined (map (fun i => let! z := octal_piece n v i in let! y := octal_piece n x i in Ok (four_chars base 3 z y)) (zrange 0 ((n + 2) / 3)))
  else in_pieces n (fun m i => Ok (four_chars base m (word_at v i) (word_at x i))).

(** * the texts *)
Definition valid {A} (req : request) (m : outcome A) : outcome A := match req with Bad => Exn | _ => m end.
(** negative decimals are printed as the magnitude of the stored number *)
Definition negative_decimal (base : Z) (b : bit) : bool :=
  member "dD" base && bsgn b && (if bw b <=? 64 then stored b <? 0 else Z.testbit (stored b) (bw b - 1)).
Definition no_magnitude (b : bit) : bool := (16 <? bw b) && (bw b <=? 64) && (stored b =? - 2 ^ (computing (bw b) - 1)).
Definition magnitude (base : Z) (b : bit) : Z :=
  if bw b <=? 64 then if negative_decimal base b then - stored b mod 2 ^ bw b else stored b mod 2 ^ 64
  else (if negative_decimal base b then - stored b else stored b) mod 2 ^ capacity (bw b).
Definition bit_print (req : request) (base : Z) (b : bit) : outcome (list Z) :=
  let n := bw b in
  if (64 <? n) && negb (bsgn b) then IllFormed
  else if negative_decimal base b && no_magnitude b then UB
  else valid req
    (let! w := natural base n in
     let! cs := if n <=? 64 then two_chars base n (magnitude base b) else two_wide req base n (magnitude base b) in
     Ok (layout req base w (negative_decimal base b) cs)).
Definition logic_print (req : request) (base : Z) (l : logic) : outcome (list Z) :=
  let n := lw l in
  if negative_decimal base (l_val l) && no_magnitude (l_val l) then UB
  else valid req
    (let! w := natural base n in
     let! cs := if n <=? 64 then Ok (four_chars base n (magnitude base (l_val l)) (stored (l_xz l)))
                else four_wide base n (magnitude base (l_val l)) (stored (l_xz l)) in
     Ok (layout req base w (negative_decimal base (l_val l)) cs)).

(** * which vectors are printed right *)
(** the last digit of [k] positions may reach beyond the width: nothing is stored there *)
Definition ends_clear (l : logic) (k : Z) : Prop :=
  forall p, lw l <= p < k * ((lw l + k - 1) / k) -> p < capacity (lw l) -> Z.testbit (stored (l_val l)) p = false /\ Z.testbit (stored (l_xz l)) p = false.
(** str() gives a numeral of the usual length for the number *)
Definition right_numeral (l : logic) (base k : Z) : Prop :=
  exists s, logic_str l [base] = Ok s /\ usual_width base (lw l) (len s) /\ Forall (among "0123456789abcdef") s /\ numeral_value (2 ^ k) s = num (l_val l).
(** the position at the other end of the same word *)
Definition mirrored (n i : Z) : Z := 64 * (i / 64) + (Z.min 64 (n - 64 * (i / 64)) - 1 - i mod 64).
(** the numbers whose decimal is right: of at most 64 positions *)
Definition prints_native (b : bit) : Prop := bsgn b = true -> (bw b = 1 -> value b = 0) /\ (bw b = 32 \/ bw b = 64 -> value b <> - 2 ^ (bw b - 1)).
(** of more than 64 positions *)
Definition prints_wide (b : bit) : Prop := bw b <> 128 /\ 0 < Z.abs (value b) < 2 ^ 128 /\ (value b < 0 -> 128 < bw b).
