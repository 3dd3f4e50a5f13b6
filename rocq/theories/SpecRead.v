(** What the constructors from text make of an arbitrary text: a reference reader.  Every position of the result is named
    by the characters it comes from; nothing here refers to the parsing loops of the model. *)
From Coq Require Import ZArith List Bool String.
From Verif Require Import Cpp Bit Logic Util Spec SpecText SpecMachine SpecWide.
Import ListNotations.
Open Scope Z_scope.

Definition member (s : string) (c : Z) : bool := existsb (Z.eqb c) (chars s).

(** The base and the body of a text.  After the first ['] the size is skipped, the next character is the base, the rest
    the body.  Without ['] the text is a string of characters; when nothing but digits follows the ['], the whole text,
    ['] included, is the body of a binary number. *)
Inductive parts : list Z -> Z -> list Z -> Prop :=
| Plain (t : list Z) : ~ In 39 t -> parts t 115 t
| Based (pre size : list Z) (base : Z) (body : list Z) :
    prefix_ok pre size -> ~ among "0123456789" base -> parts (literal pre size base body) base body
| Unbased (pre size : list Z) : prefix_ok pre size -> parts (pre ++ 39 :: size) 98 (pre ++ 39 :: size).

(** the characters of a text that take a place, the rightmost first: all but underscores *)
Definition places (s : list Z) : list Z := rev (clean s).
(** characters worth [d c], each [k] positions higher than the one before *)
Fixpoint stacked (k : Z) (d : Z -> Z) (cs : list Z) : Z :=
  match cs with [] => 0 | c :: r => Z.lor (d c) (stacked k d r * 2 ^ k) end.

(** what a character is worth.  Upper-case X and Z are 0 in binary, a to f are 0 to 5 in hexadecimal; every other
    character is taken for an octal digit. *)
Definition bin_worth (c : Z) : Z := if member "1z" c then 1 else 0.
Definition oct_worth (c : Z) : Z := if member "xX" c then 0 else if member "zZ" c then 7 else (c - 48) mod 2 ^ 64.
Definition hex_worth (c : Z) : Z :=
  if member "zZ" c then 15
  else if member "0123456789" c then c - 48
  else if member "ABCDEF" c then c - 55
  else if member "abcdef" c then c - 97
  else 0.
Definition unknown_worth (s : string) (k c : Z) : Z := if member s c then 2 ^ k - 1 else 0.

(** a shift by 64 or more is undefined: binary digits are only shifted when they are 1 or z, octal and
    hexadecimal characters always, underscores included *)
Definition short (k : Z) (s : list Z) : bool := match s with [] => true | _ :: r => k * len (clean r) <? 64 end.
Definition readable (base : Z) (s : list Z) : bool :=
  if member "bB" base then negb (existsb (member "1z") (skipn 64 (places s)))
  else if member "oO" base then short 3 s
  else if member "hH" base then short 4 s
  else true.
(** the number of 64 positions a text stands for *)
Definition number (base : Z) (s : list Z) : Z :=
  if member "bB" base then stacked 1 bin_worth (places s) mod 2 ^ 64
  else if member "oO" base then stacked 3 oct_worth (places s) mod 2 ^ 64
  else if member "hH" base then stacked 4 hex_worth (places s) mod 2 ^ 64
  else if member "dD" base then numeral_value 10 (filter (member "0123456789") s) mod 2 ^ 64
  else if member "sS" base then stacked 8 (fun c => c mod 256) (firstn 8 (rev s))
  else 0.

(** its x and z positions; in binary these are found in the lower 32 positions only *)
Definition mask_readable (base : Z) (s : list Z) : bool :=
  if member "bB" base then negb (existsb (member "xz") (skipn 32 (places s)))
  else if member "oO" base then negb (existsb (member "xXzZ") (skipn 22 (places s)))
  else if member "hH" base then negb (existsb (member "xXzZ") (skipn 16 (places s)))
  else true.
Definition mask (base : Z) (s : list Z) : Z :=
  if member "bB" base then stacked 1 (unknown_worth "xz" 1) (places s) mod 2 ^ 64
  else if member "oO" base then stacked 3 (unknown_worth "xXzZ" 3) (places s) mod 2 ^ 64
  else if member "hH" base then stacked 4 (unknown_worth "xXzZ" 4) (places s) mod 2 ^ 64
  else 0.

(** a wide vector cuts the text, from the right, into pieces of so many characters, one for each word *)
Definition per_word (base : Z) : Z :=
  if member "oO" base then 21 else if member "hHxX" base then 16 else if member "sS" base then 8 else 64.
Definition piece (base : Z) (s : list Z) (j : Z) : list Z :=
  rev (firstn (Z.to_nat (per_word base)) (skipn (Z.to_nat (j * per_word base)) (rev s))).
Fixpoint in_words (f : Z -> Z) (j : Z) (k : nat) : Z :=
  match k with O => 0 | S k' => f j + 2 ^ 64 * in_words f (j + 1) k' end.
Definition wide_number (f : Z -> list Z -> Z) (base : Z) (s : list Z) (n : Z) : Z :=
  in_words (fun j => f base (piece base s j)) 0 (Z.to_nat (words_in n)).

(** the vectors read *)
Definition bit_read (msb lsb : Z) (sg : bool) (base : Z) (s : list Z) : outcome bit :=
  let n := width msb lsb in
  if n <=? 64 then if readable base s then Ok (object msb lsb sg (number base s)) else UB
  else Ok (object msb lsb sg (wide_number number base s n)).
Definition logic_read (msb lsb : Z) (sg : bool) (base : Z) (s : list Z) : outcome logic :=
  let n := width msb lsb in
  if n <=? 64 then
    if readable base s && mask_readable base s
    then Ok (mkLogic (object msb lsb sg (number base s)) (object msb lsb false (mask base s)))
    else UB
  else
    if forallb (fun j => mask_readable base (piece base s j)) (zrange 0 (words_in n))
    then Ok (mkLogic (object msb lsb sg (wide_number number base s n)) (object msb lsb false (wide_number mask base s n)))
    else UB.
