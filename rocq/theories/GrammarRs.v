(** GENERATED by tools/gen_grammar.py from /repo/src/grammar.rs: do not edit.

    One Gallina branch per arm of the Rust [match]es.  [state] models the field
    [state: u32], [c] the argument [token: char] (its code point).  [None] models
    [return false] (the state is then left as it was and validation stops).
    [R "a" "z" c] is the pattern ['a'..='z'], [C "a" c] the pattern ['a']. *)
From Verif Require Import Base.

(** Rust range pattern ['lo'..='hi'] on a [char]. *)
Definition R (lo hi : byte) (c : N) : bool := (code lo <=? c)%N && (c <=? code hi)%N.
Arguments R (lo hi)%byte_scope c%N_scope.
(** Rust literal pattern ['x'] on a [char]. *)
Definition C (x : byte) (c : N) : bool := (c =? code x)%N.
Arguments C x%byte_scope c%N_scope.

Local Open Scope N_scope.

(** grammar.rs:9-1035, [LanguageTag::push]. *)
Definition LanguageTag_push (state c : N) : option N :=
  match state with
  | 0 => (* 11-35 *)
    if C "A" c || C "a" c then Some 1 else
    if C "B" c || C "D" c || R "F" "H" c || R "J" "M" c || R "O" "R" c || R "T" "W" c || C "Y" c || C "b" c || C "d" c || R "f" "h" c || R "j" "m" c || R "o" "r" c || R "t" "w" c || C "y" c then Some 2 else
    if C "C" c || C "c" c then Some 3 else
    if C "E" c || C "e" c then Some 4 else
    if C "I" c || C "i" c then Some 5 else
    if C "N" c || C "n" c then Some 6 else
    if C "S" c || C "s" c then Some 7 else
    if C "X" c || C "x" c then Some 8 else
    if C "Z" c || C "z" c then Some 9 else
    None
  | 1 => (* 36-40 *)
    if R "A" "Q" c || R "S" "Z" c || R "a" "q" c || R "s" "z" c then Some 10 else
    if C "R" c || C "r" c then Some 11 else
    None
  | 2 => (* 41-44 *)
    if R "A" "Z" c || R "a" "z" c then Some 10 else
    None
  | 3 => (* 45-49 *)
    if R "A" "D" c || R "F" "Z" c || R "a" "d" c || R "f" "z" c then Some 10 else
    if C "E" c || C "e" c then Some 12 else
    None
  | 4 => (* 50-54 *)
    if R "A" "M" c || R "O" "Z" c || R "a" "m" c || R "o" "z" c then Some 10 else
    if C "N" c || C "n" c then Some 13 else
    None
  | 5 => (* 55-59 *)
    if C "-" c then Some 14 else
    if R "A" "Z" c || R "a" "z" c then Some 10 else
    None
  | 6 => (* 60-64 *)
    if R "A" "N" c || R "P" "Z" c || R "a" "n" c || R "p" "z" c then Some 10 else
    if C "O" c || C "o" c then Some 15 else
    None
  | 7 => (* 65-69 *)
    if R "A" "F" c || R "H" "Z" c || R "a" "f" c || R "h" "z" c then Some 10 else
    if C "G" c || C "g" c then Some 16 else
    None
  | 8 => (* 70-74 *)
    if C "-" c then Some 17 else
    if R "A" "Z" c || R "a" "z" c then Some 10 else
    None
  | 9 => (* 75-79 *)
    if R "A" "G" c || R "I" "Z" c || R "a" "g" c || R "i" "z" c then Some 10 else
    if C "H" c || C "h" c then Some 18 else
    None
  | 10 => (* 80-84 *)
    if C "-" c then Some 19 else
    if R "A" "Z" c || R "a" "z" c then Some 20 else
    None
  | 11 => (* 85-90 *)
    if C "-" c then Some 19 else
    if R "A" "S" c || R "U" "Z" c || R "a" "s" c || R "u" "z" c then Some 20 else
    if C "T" c || C "t" c then Some 176 else
    None
  | 12 => (* 91-96 *)
    if C "-" c then Some 19 else
    if R "A" "K" c || R "M" "Z" c || R "a" "k" c || R "m" "z" c then Some 20 else
    if C "L" c || C "l" c then Some 168 else
    None
  | 13 => (* 97-101 *)
    if C "-" c then Some 161 else
    if R "A" "Z" c || R "a" "z" c then Some 20 else
    None
  | 14 => (* 102-115 *)
    if C "A" c || C "a" c then Some 123 else
    if C "B" c || C "b" c then Some 124 else
    if C "D" c || C "d" c then Some 125 else
    if C "E" c || C "e" c then Some 126 else
    if C "H" c || C "h" c then Some 127 else
    if C "K" c || C "k" c then Some 128 else
    if C "L" c || C "l" c then Some 129 else
    if C "M" c || C "m" c then Some 130 else
    if C "N" c || C "n" c then Some 131 else
    if C "P" c || C "p" c then Some 132 else
    if C "T" c || C "t" c then Some 133 else
    None
  | 15 => (* 116-120 *)
    if C "-" c then Some 118 else
    if R "A" "Z" c || R "a" "z" c then Some 20 else
    None
  | 16 => (* 121-126 *)
    if C "-" c then Some 19 else
    if R "A" "M" c || R "O" "Z" c || R "a" "m" c || R "o" "z" c then Some 20 else
    if C "N" c || C "n" c then Some 106 else
    None
  | 17 => (* 127-130 *)
    if R "0" "9" c || R "A" "Z" c || R "a" "z" c then Some 64 else
    None
  | 18 => (* 131-135 *)
    if C "-" c then Some 21 else
    if R "A" "Z" c || R "a" "z" c then Some 20 else
    None
  | 19 => (* 136-141 *)
    if R "0" "9" c then Some 22 else
    if R "A" "W" c || R "Y" "Z" c || R "a" "w" c || R "y" "z" c then Some 23 else
    if C "X" c || C "x" c then Some 24 else
    None
  | 20 => (* 142-146 *)
    if C "-" c then Some 19 else
    if R "A" "Z" c || R "a" "z" c then Some 25 else
    None
  | 21 => (* 147-162 *)
    if R "0" "9" c then Some 22 else
    if R "A" "F" c || R "I" "L" c || R "N" "W" c || R "Y" "Z" c || R "a" "f" c || R "i" "l" c || R "n" "w" c || R "y" "z" c then Some 23 else
    if C "G" c || C "g" c then Some 88 else
    if C "H" c || C "h" c then Some 89 else
    if C "M" c || C "m" c then Some 90 else
    if C "X" c || C "x" c then Some 91 else
    None
  | 22 => (* 163-168 *)
    if C "-" c then Some 33 else
    if R "0" "9" c then Some 34 else
    if R "A" "Z" c || R "a" "z" c then Some 35 else
    None
  | 23 => (* 169-174 *)
    if C "-" c then Some 33 else
    if R "0" "9" c then Some 36 else
    if R "A" "Z" c || R "a" "z" c then Some 76 else
    None
  | 24 => (* 175-180 *)
    if C "-" c then Some 17 else
    if R "0" "9" c then Some 36 else
    if R "A" "Z" c || R "a" "z" c then Some 76 else
    None
  | 25 => (* 181-185 *)
    if C "-" c then Some 26 else
    if R "A" "Z" c || R "a" "z" c then Some 27 else
    None
  | 26 => (* 186-191 *)
    if R "0" "9" c then Some 22 else
    if R "A" "W" c || R "Y" "Z" c || R "a" "w" c || R "y" "z" c then Some 28 else
    if C "X" c || C "x" c then Some 29 else
    None
  | 27 => (* 192-196 *)
    if C "-" c then Some 26 else
    if R "A" "Z" c || R "a" "z" c then Some 30 else
    None
  | 28 => (* 197-202 *)
    if C "-" c then Some 33 else
    if R "0" "9" c then Some 36 else
    if R "A" "Z" c || R "a" "z" c then Some 37 else
    None
  | 29 => (* 203-208 *)
    if C "-" c then Some 17 else
    if R "0" "9" c then Some 36 else
    if R "A" "Z" c || R "a" "z" c then Some 37 else
    None
  | 30 => (* 209-213 *)
    if C "-" c then Some 26 else
    if R "A" "Z" c || R "a" "z" c then Some 31 else
    None
  | 31 => (* 214-218 *)
    if C "-" c then Some 26 else
    if R "A" "Z" c || R "a" "z" c then Some 32 else
    None
  | 32 => (* 219-222 *)
    if C "-" c then Some 26 else
    None
  | 33 => (* 223-226 *)
    if R "0" "9" c || R "A" "Z" c || R "a" "z" c then Some 38 else
    None
  | 34 => (* 227-231 *)
    if R "0" "9" c then Some 75 else
    if R "A" "Z" c || R "a" "z" c then Some 72 else
    None
  | 35 => (* 232-235 *)
    if R "0" "9" c || R "A" "Z" c || R "a" "z" c then Some 72 else
    None
  | 36 => (* 236-239 *)
    if R "0" "9" c || R "A" "Z" c || R "a" "z" c then Some 39 else
    None
  | 37 => (* 240-245 *)
    if C "-" c then Some 40 else
    if R "0" "9" c then Some 39 else
    if R "A" "Z" c || R "a" "z" c then Some 41 else
    None
  | 38 => (* 246-249 *)
    if R "0" "9" c || R "A" "Z" c || R "a" "z" c then Some 54 else
    None
  | 39 => (* 250-253 *)
    if R "0" "9" c || R "A" "Z" c || R "a" "z" c then Some 45 else
    None
  | 40 => (* 254-259 *)
    if R "0" "9" c then Some 42 else
    if R "A" "W" c || R "Y" "Z" c || R "a" "w" c || R "y" "z" c then Some 43 else
    if C "X" c || C "x" c then Some 44 else
    None
  | 41 => (* 260-264 *)
    if R "0" "9" c then Some 45 else
    if R "A" "Z" c || R "a" "z" c then Some 46 else
    None
  | 42 => (* 265-269 *)
    if C "-" c then Some 33 else
    if R "0" "9" c || R "A" "Z" c || R "a" "z" c then Some 35 else
    None
  | 43 => (* 270-274 *)
    if C "-" c then Some 33 else
    if R "0" "9" c || R "A" "Z" c || R "a" "z" c then Some 36 else
    None
  | 44 => (* 275-279 *)
    if C "-" c then Some 17 else
    if R "0" "9" c || R "A" "Z" c || R "a" "z" c then Some 36 else
    None
  | 45 => (* 280-283 *)
    if R "0" "9" c || R "A" "Z" c || R "a" "z" c then Some 47 else
    None
  | 46 => (* 284-288 *)
    if C "-" c then Some 48 else
    if R "0" "9" c || R "A" "Z" c || R "a" "z" c then Some 47 else
    None
  | 47 => (* 289-293 *)
    if C "-" c then Some 40 else
    if R "0" "9" c || R "A" "Z" c || R "a" "z" c then Some 51 else
    None
  | 48 => (* 294-299 *)
    if R "0" "9" c then Some 22 else
    if R "A" "W" c || R "Y" "Z" c || R "a" "w" c || R "y" "z" c then Some 49 else
    if C "X" c || C "x" c then Some 50 else
    None
  | 49 => (* 300-305 *)
    if C "-" c then Some 33 else
    if R "0" "9" c then Some 36 else
    if R "A" "Z" c || R "a" "z" c then Some 74 else
    None
  | 50 => (* 306-311 *)
    if C "-" c then Some 17 else
    if R "0" "9" c then Some 36 else
    if R "A" "Z" c || R "a" "z" c then Some 74 else
    None
  | 51 => (* 312-316 *)
    if C "-" c then Some 40 else
    if R "0" "9" c || R "A" "Z" c || R "a" "z" c then Some 52 else
    None
  | 52 => (* 317-321 *)
    if C "-" c then Some 40 else
    if R "0" "9" c || R "A" "Z" c || R "a" "z" c then Some 53 else
    None
  | 53 => (* 322-325 *)
    if C "-" c then Some 40 else
    None
  | 54 => (* 326-330 *)
    if C "-" c then Some 55 else
    if R "0" "9" c || R "A" "Z" c || R "a" "z" c then Some 56 else
    None
  | 55 => (* 331-335 *)
    if R "0" "9" c || R "A" "W" c || R "Y" "Z" c || R "a" "w" c || R "y" "z" c then Some 57 else
    if C "X" c || C "x" c then Some 58 else
    None
  | 56 => (* 336-340 *)
    if C "-" c then Some 55 else
    if R "0" "9" c || R "A" "Z" c || R "a" "z" c then Some 59 else
    None
  | 57 => (* 341-345 *)
    if C "-" c then Some 33 else
    if R "0" "9" c || R "A" "Z" c || R "a" "z" c then Some 54 else
    None
  | 58 => (* 346-350 *)
    if C "-" c then Some 17 else
    if R "0" "9" c || R "A" "Z" c || R "a" "z" c then Some 54 else
    None
  | 59 => (* 351-355 *)
    if C "-" c then Some 55 else
    if R "0" "9" c || R "A" "Z" c || R "a" "z" c then Some 60 else
    None
  | 60 => (* 356-360 *)
    if C "-" c then Some 55 else
    if R "0" "9" c || R "A" "Z" c || R "a" "z" c then Some 61 else
    None
  | 61 => (* 361-365 *)
    if C "-" c then Some 55 else
    if R "0" "9" c || R "A" "Z" c || R "a" "z" c then Some 62 else
    None
  | 62 => (* 366-370 *)
    if C "-" c then Some 55 else
    if R "0" "9" c || R "A" "Z" c || R "a" "z" c then Some 63 else
    None
  | 63 => (* 371-374 *)
    if C "-" c then Some 55 else
    None
  | 64 => (* 375-379 *)
    if C "-" c then Some 17 else
    if R "0" "9" c || R "A" "Z" c || R "a" "z" c then Some 65 else
    None
  | 65 => (* 380-384 *)
    if C "-" c then Some 17 else
    if R "0" "9" c || R "A" "Z" c || R "a" "z" c then Some 66 else
    None
  | 66 => (* 385-389 *)
    if C "-" c then Some 17 else
    if R "0" "9" c || R "A" "Z" c || R "a" "z" c then Some 67 else
    None
  | 67 => (* 390-394 *)
    if C "-" c then Some 17 else
    if R "0" "9" c || R "A" "Z" c || R "a" "z" c then Some 68 else
    None
  | 68 => (* 395-399 *)
    if C "-" c then Some 17 else
    if R "0" "9" c || R "A" "Z" c || R "a" "z" c then Some 69 else
    None
  | 69 => (* 400-404 *)
    if C "-" c then Some 17 else
    if R "0" "9" c || R "A" "Z" c || R "a" "z" c then Some 70 else
    None
  | 70 => (* 405-409 *)
    if C "-" c then Some 17 else
    if R "0" "9" c || R "A" "Z" c || R "a" "z" c then Some 71 else
    None
  | 71 => (* 410-413 *)
    if C "-" c then Some 17 else
    None
  | 72 => (* 414-417 *)
    if R "0" "9" c || R "A" "Z" c || R "a" "z" c then Some 73 else
    None
  | 73 => (* 418-422 *)
    if C "-" c then Some 40 else
    if R "0" "9" c || R "A" "Z" c || R "a" "z" c then Some 47 else
    None
  | 74 => (* 423-427 *)
    if C "-" c then Some 40 else
    if R "0" "9" c || R "A" "Z" c || R "a" "z" c then Some 39 else
    None
  | 75 => (* 428-432 *)
    if C "-" c then Some 40 else
    if R "0" "9" c || R "A" "Z" c || R "a" "z" c then Some 73 else
    None
  | 76 => (* 433-438 *)
    if C "-" c then Some 40 else
    if R "0" "9" c then Some 39 else
    if R "A" "Z" c || R "a" "z" c then Some 77 else
    None
  | 77 => (* 439-444 *)
    if C "-" c then Some 78 else
    if R "0" "9" c then Some 45 else
    if R "A" "Z" c || R "a" "z" c then Some 46 else
    None
  | 78 => (* 445-450 *)
    if R "0" "9" c then Some 22 else
    if R "A" "W" c || R "Y" "Z" c || R "a" "w" c || R "y" "z" c then Some 79 else
    if C "X" c || C "x" c then Some 80 else
    None
  | 79 => (* 451-456 *)
    if C "-" c then Some 33 else
    if R "0" "9" c then Some 36 else
    if R "A" "Z" c || R "a" "z" c then Some 81 else
    None
  | 80 => (* 457-462 *)
    if C "-" c then Some 17 else
    if R "0" "9" c then Some 36 else
    if R "A" "Z" c || R "a" "z" c then Some 81 else
    None
  | 81 => (* 463-468 *)
    if C "-" c then Some 40 else
    if R "0" "9" c then Some 39 else
    if R "A" "Z" c || R "a" "z" c then Some 82 else
    None
  | 82 => (* 469-474 *)
    if C "-" c then Some 83 else
    if R "0" "9" c then Some 45 else
    if R "A" "Z" c || R "a" "z" c then Some 46 else
    None
  | 83 => (* 475-480 *)
    if R "0" "9" c then Some 22 else
    if R "A" "W" c || R "Y" "Z" c || R "a" "w" c || R "y" "z" c then Some 84 else
    if C "X" c || C "x" c then Some 85 else
    None
  | 84 => (* 481-486 *)
    if C "-" c then Some 33 else
    if R "0" "9" c then Some 36 else
    if R "A" "Z" c || R "a" "z" c then Some 86 else
    None
  | 85 => (* 487-492 *)
    if C "-" c then Some 17 else
    if R "0" "9" c then Some 36 else
    if R "A" "Z" c || R "a" "z" c then Some 86 else
    None
  | 86 => (* 493-498 *)
    if C "-" c then Some 40 else
    if R "0" "9" c then Some 39 else
    if R "A" "Z" c || R "a" "z" c then Some 87 else
    None
  | 87 => (* 499-504 *)
    if C "-" c then Some 26 else
    if R "0" "9" c then Some 45 else
    if R "A" "Z" c || R "a" "z" c then Some 46 else
    None
  | 88 => (* 505-511 *)
    if C "-" c then Some 33 else
    if R "0" "9" c then Some 36 else
    if R "A" "T" c || R "V" "Z" c || R "a" "t" c || R "v" "z" c then Some 76 else
    if C "U" c || C "u" c then Some 92 else
    None
  | 89 => (* 512-518 *)
    if C "-" c then Some 33 else
    if R "0" "9" c then Some 36 else
    if C "A" c || C "a" c then Some 93 else
    if R "B" "Z" c || R "b" "z" c then Some 76 else
    None
  | 90 => (* 519-525 *)
    if C "-" c then Some 33 else
    if R "0" "9" c then Some 36 else
    if R "A" "H" c || R "J" "Z" c || R "a" "h" c || R "j" "z" c then Some 76 else
    if C "I" c || C "i" c then Some 94 else
    None
  | 91 => (* 526-532 *)
    if C "-" c then Some 17 else
    if R "0" "9" c then Some 36 else
    if R "A" "H" c || R "J" "Z" c || R "a" "h" c || R "j" "z" c then Some 76 else
    if C "I" c || C "i" c then Some 95 else
    None
  | 92 => (* 533-539 *)
    if C "-" c then Some 40 else
    if R "0" "9" c then Some 39 else
    if R "A" "N" c || R "P" "Z" c || R "a" "n" c || R "p" "z" c then Some 77 else
    if C "O" c || C "o" c then Some 104 else
    None
  | 93 => (* 540-546 *)
    if C "-" c then Some 40 else
    if R "0" "9" c then Some 39 else
    if R "A" "J" c || R "L" "Z" c || R "a" "j" c || R "l" "z" c then Some 77 else
    if C "K" c || C "k" c then Some 102 else
    None
  | 94 => (* 547-553 *)
    if C "-" c then Some 40 else
    if R "0" "9" c then Some 39 else
    if R "A" "M" c || R "O" "Z" c || R "a" "m" c || R "o" "z" c then Some 77 else
    if C "N" c || C "n" c then Some 98 else
    None
  | 95 => (* 554-560 *)
    if C "-" c then Some 40 else
    if R "0" "9" c then Some 39 else
    if C "A" c || C "a" c then Some 96 else
    if R "B" "Z" c || R "b" "z" c then Some 77 else
    None
  | 96 => (* 561-567 *)
    if C "-" c then Some 78 else
    if R "0" "9" c then Some 45 else
    if R "A" "M" c || R "O" "Z" c || R "a" "m" c || R "o" "z" c then Some 46 else
    if C "N" c || C "n" c then Some 97 else
    None
  | 97 => (* 568-572 *)
    if C "-" c then Some 48 else
    if R "0" "9" c || R "A" "Z" c || R "a" "z" c then Some 47 else
    None
  | 98 => (* 573-578 *)
    if C "-" c then Some 99 else
    if R "0" "9" c then Some 45 else
    if R "A" "Z" c || R "a" "z" c then Some 46 else
    None
  | 99 => (* 579-585 *)
    if R "0" "9" c then Some 22 else
    if R "A" "M" c || R "O" "W" c || R "Y" "Z" c || R "a" "m" c || R "o" "w" c || R "y" "z" c then Some 79 else
    if C "N" c || C "n" c then Some 100 else
    if C "X" c || C "x" c then Some 80 else
    None
  | 100 => (* 586-592 *)
    if C "-" c then Some 33 else
    if R "0" "9" c then Some 36 else
    if C "A" c || C "a" c then Some 101 else
    if R "B" "Z" c || R "b" "z" c then Some 81 else
    None
  | 101 => (* 593-598 *)
    if C "-" c then Some 40 else
    if R "0" "9" c then Some 39 else
    if R "A" "Z" c || R "a" "z" c then Some 82 else
    None
  | 102 => (* 599-605 *)
    if C "-" c then Some 78 else
    if R "0" "9" c then Some 45 else
    if R "A" "J" c || R "L" "Z" c || R "a" "j" c || R "l" "z" c then Some 46 else
    if C "K" c || C "k" c then Some 103 else
    None
  | 103 => (* 606-610 *)
    if C "-" c then Some 48 else
    if R "0" "9" c || R "A" "Z" c || R "a" "z" c then Some 47 else
    None
  | 104 => (* 611-617 *)
    if C "-" c then Some 78 else
    if R "0" "9" c then Some 45 else
    if R "A" "X" c || C "Z" c || R "a" "x" c || C "z" c then Some 46 else
    if C "Y" c || C "y" c then Some 105 else
    None
  | 105 => (* 618-622 *)
    if C "-" c then Some 48 else
    if R "0" "9" c || R "A" "Z" c || R "a" "z" c then Some 47 else
    None
  | 106 => (* 623-627 *)
    if C "-" c then Some 107 else
    if R "A" "Z" c || R "a" "z" c then Some 25 else
    None
  | 107 => (* 628-635 *)
    if R "0" "9" c then Some 22 else
    if C "A" c || R "D" "W" c || R "Y" "Z" c || C "a" c || R "d" "w" c || R "y" "z" c then Some 23 else
    if C "B" c || C "b" c then Some 108 else
    if C "C" c || C "c" c then Some 109 else
    if C "X" c || C "x" c then Some 24 else
    None
  | 108 => (* 636-642 *)
    if C "-" c then Some 33 else
    if R "0" "9" c then Some 36 else
    if R "A" "D" c || R "F" "Z" c || R "a" "d" c || R "f" "z" c then Some 76 else
    if C "E" c || C "e" c then Some 110 else
    None
  | 109 => (* 643-649 *)
    if C "-" c then Some 33 else
    if R "0" "9" c then Some 36 else
    if R "A" "G" c || R "I" "Z" c || R "a" "g" c || R "i" "z" c then Some 76 else
    if C "H" c || C "h" c then Some 111 else
    None
  | 110 => (* 650-655 *)
    if C "-" c then Some 115 else
    if R "0" "9" c then Some 39 else
    if R "A" "Z" c || R "a" "z" c then Some 77 else
    None
  | 111 => (* 656-661 *)
    if C "-" c then Some 112 else
    if R "0" "9" c then Some 39 else
    if R "A" "Z" c || R "a" "z" c then Some 77 else
    None
  | 112 => (* 662-668 *)
    if R "0" "9" c then Some 42 else
    if R "A" "C" c || R "E" "W" c || R "Y" "Z" c || R "a" "c" c || R "e" "w" c || R "y" "z" c then Some 43 else
    if C "D" c || C "d" c then Some 113 else
    if C "X" c || C "x" c then Some 44 else
    None
  | 113 => (* 669-674 *)
    if C "-" c then Some 33 else
    if R "0" "9" c || R "A" "D" c || R "F" "Z" c || R "a" "d" c || R "f" "z" c then Some 36 else
    if C "E" c || C "e" c then Some 114 else
    None
  | 114 => (* 675-678 *)
    if R "0" "9" c || R "A" "Z" c || R "a" "z" c then Some 39 else
    None
  | 115 => (* 679-693 *)
    if R "0" "9" c then Some 42 else
    if R "A" "E" c || R "G" "M" c || R "O" "W" c || R "Y" "Z" c || R "a" "e" c || R "g" "m" c || R "o" "w" c || R "y" "z" c then Some 43 else
    if C "F" c || C "f" c then Some 116 else
    if C "N" c || C "n" c then Some 117 else
    if C "X" c || C "x" c then Some 44 else
    None
  | 116 => (* 694-699 *)
    if C "-" c then Some 33 else
    if R "0" "9" c || R "A" "Q" c || R "S" "Z" c || R "a" "q" c || R "s" "z" c then Some 36 else
    if C "R" c || C "r" c then Some 114 else
    None
  | 117 => (* 700-705 *)
    if C "-" c then Some 33 else
    if R "0" "9" c || R "A" "K" c || R "M" "Z" c || R "a" "k" c || R "m" "z" c then Some 36 else
    if C "L" c || C "l" c then Some 114 else
    None
  | 118 => (* 706-720 *)
    if R "0" "9" c then Some 22 else
    if C "A" c || R "C" "M" c || R "O" "W" c || R "Y" "Z" c || C "a" c || R "c" "m" c || R "o" "w" c || R "y" "z" c then Some 23 else
    if C "B" c || C "b" c then Some 119 else
    if C "N" c || C "n" c then Some 120 else
    if C "X" c || C "x" c then Some 24 else
    None
  | 119 => (* 721-727 *)
    if C "-" c then Some 33 else
    if R "0" "9" c then Some 36 else
    if R "A" "N" c || R "P" "Z" c || R "a" "n" c || R "p" "z" c then Some 76 else
    if C "O" c || C "o" c then Some 121 else
    None
  | 120 => (* 728-734 *)
    if C "-" c then Some 33 else
    if R "0" "9" c then Some 36 else
    if R "A" "X" c || C "Z" c || R "a" "x" c || C "z" c then Some 76 else
    if C "Y" c || C "y" c then Some 122 else
    None
  | 121 => (* 735-740 *)
    if C "-" c then Some 40 else
    if R "0" "9" c then Some 39 else
    if R "A" "Z" c || R "a" "z" c then Some 77 else
    None
  | 122 => (* 741-746 *)
    if C "-" c then Some 40 else
    if R "0" "9" c then Some 39 else
    if R "A" "Z" c || R "a" "z" c then Some 77 else
    None
  | 123 => (* 747-750 *)
    if C "M" c || C "m" c then Some 134 else
    None
  | 124 => (* 751-754 *)
    if C "N" c || C "n" c then Some 135 else
    None
  | 125 => (* 755-758 *)
    if C "E" c || C "e" c then Some 136 else
    None
  | 126 => (* 759-762 *)
    if C "N" c || C "n" c then Some 137 else
    None
  | 127 => (* 763-766 *)
    if C "A" c || C "a" c then Some 138 else
    None
  | 128 => (* 767-770 *)
    if C "L" c || C "l" c then Some 139 else
    None
  | 129 => (* 771-774 *)
    if C "U" c || C "u" c then Some 140 else
    None
  | 130 => (* 775-778 *)
    if C "I" c || C "i" c then Some 141 else
    None
  | 131 => (* 779-782 *)
    if C "A" c || C "a" c then Some 142 else
    None
  | 132 => (* 783-786 *)
    if C "W" c || C "w" c then Some 135 else
    None
  | 133 => (* 787-791 *)
    if C "A" c || C "a" c then Some 143 else
    if C "S" c || C "s" c then Some 144 else
    None
  | 134 => (* 792-795 *)
    if C "I" c || C "i" c then Some 145 else
    None
  | 135 => (* 796-799 *)
    if C "N" c || C "n" c then Some 145 else
    None
  | 136 => (* 800-803 *)
    if C "F" c || C "f" c then Some 157 else
    None
  | 137 => (* 804-807 *)
    if C "O" c || C "o" c then Some 153 else
    None
  | 138 => (* 808-811 *)
    if C "K" c || C "k" c then Some 145 else
    None
  | 139 => (* 812-815 *)
    if C "I" c || C "i" c then Some 150 else
    None
  | 140 => (* 816-819 *)
    if C "X" c || C "x" c then Some 145 else
    None
  | 141 => (* 820-823 *)
    if C "N" c || C "n" c then Some 149 else
    None
  | 142 => (* 824-827 *)
    if C "V" c || C "v" c then Some 146 else
    None
  | 143 => (* 828-831 *)
    if C "O" c || C "Y" c || C "o" c || C "y" c then Some 145 else
    None
  | 144 => (* 832-835 *)
    if C "U" c || C "u" c then Some 145 else
    None
  | 146 => (* 836-839 *)
    if C "A" c || C "a" c then Some 147 else
    None
  | 147 => (* 840-843 *)
    if C "J" c || C "j" c then Some 148 else
    None
  | 148 => (* 844-847 *)
    if C "O" c || C "o" c then Some 145 else
    None
  | 149 => (* 848-851 *)
    if C "G" c || C "g" c then Some 148 else
    None
  | 150 => (* 852-855 *)
    if C "N" c || C "n" c then Some 151 else
    None
  | 151 => (* 856-859 *)
    if C "G" c || C "g" c then Some 152 else
    None
  | 152 => (* 860-863 *)
    if C "O" c || C "o" c then Some 135 else
    None
  | 153 => (* 864-867 *)
    if C "C" c || C "c" c then Some 154 else
    None
  | 154 => (* 868-871 *)
    if C "H" c || C "h" c then Some 155 else
    None
  | 155 => (* 872-875 *)
    if C "I" c || C "i" c then Some 156 else
    None
  | 156 => (* 876-879 *)
    if C "A" c || C "a" c then Some 135 else
    None
  | 157 => (* 880-883 *)
    if C "A" c || C "a" c then Some 158 else
    None
  | 158 => (* 884-887 *)
    if C "U" c || C "u" c then Some 159 else
    None
  | 159 => (* 888-891 *)
    if C "L" c || C "l" c then Some 160 else
    None
  | 160 => (* 892-895 *)
    if C "T" c || C "t" c then Some 145 else
    None
  | 161 => (* 896-902 *)
    if R "0" "9" c then Some 22 else
    if R "A" "F" c || R "H" "W" c || R "Y" "Z" c || R "a" "f" c || R "h" "w" c || R "y" "z" c then Some 23 else
    if C "G" c || C "g" c then Some 162 else
    if C "X" c || C "x" c then Some 24 else
    None
  | 162 => (* 903-909 *)
    if C "-" c then Some 33 else
    if R "0" "9" c then Some 36 else
    if C "A" c || R "C" "Z" c || C "a" c || R "c" "z" c then Some 76 else
    if C "B" c || C "b" c then Some 163 else
    None
  | 163 => (* 910-915 *)
    if C "-" c then Some 164 else
    if R "0" "9" c then Some 39 else
    if R "A" "Z" c || R "a" "z" c then Some 77 else
    None
  | 164 => (* 916-922 *)
    if R "0" "9" c then Some 42 else
    if R "A" "N" c || R "P" "W" c || R "Y" "Z" c || R "a" "n" c || R "p" "w" c || R "y" "z" c then Some 43 else
    if C "O" c || C "o" c then Some 165 else
    if C "X" c || C "x" c then Some 44 else
    None
  | 165 => (* 923-928 *)
    if C "-" c then Some 33 else
    if R "0" "9" c || R "A" "D" c || R "F" "Z" c || R "a" "d" c || R "f" "z" c then Some 36 else
    if C "E" c || C "e" c then Some 166 else
    None
  | 166 => (* 929-933 *)
    if R "0" "9" c || R "A" "C" c || R "E" "Z" c || R "a" "c" c || R "e" "z" c then Some 39 else
    if C "D" c || C "d" c then Some 167 else
    None
  | 167 => (* 934-937 *)
    if R "0" "9" c || R "A" "Z" c || R "a" "z" c then Some 45 else
    None
  | 168 => (* 938-942 *)
    if C "-" c then Some 169 else
    if R "A" "Z" c || R "a" "z" c then Some 25 else
    None
  | 169 => (* 943-949 *)
    if R "0" "9" c then Some 22 else
    if R "A" "F" c || R "H" "W" c || R "Y" "Z" c || R "a" "f" c || R "h" "w" c || R "y" "z" c then Some 23 else
    if C "G" c || C "g" c then Some 170 else
    if C "X" c || C "x" c then Some 24 else
    None
  | 170 => (* 950-956 *)
    if C "-" c then Some 33 else
    if R "0" "9" c then Some 36 else
    if C "A" c || C "a" c then Some 171 else
    if R "B" "Z" c || R "b" "z" c then Some 76 else
    None
  | 171 => (* 957-963 *)
    if C "-" c then Some 40 else
    if R "0" "9" c then Some 39 else
    if R "A" "T" c || R "V" "Z" c || R "a" "t" c || R "v" "z" c then Some 77 else
    if C "U" c || C "u" c then Some 172 else
    None
  | 172 => (* 964-970 *)
    if C "-" c then Some 78 else
    if R "0" "9" c then Some 45 else
    if R "A" "K" c || R "M" "Z" c || R "a" "k" c || R "m" "z" c then Some 46 else
    if C "L" c || C "l" c then Some 173 else
    None
  | 173 => (* 971-976 *)
    if C "-" c then Some 48 else
    if R "0" "9" c || R "A" "H" c || R "J" "Z" c || R "a" "h" c || R "j" "z" c then Some 47 else
    if C "I" c || C "i" c then Some 174 else
    None
  | 174 => (* 977-982 *)
    if C "-" c then Some 40 else
    if R "0" "9" c || R "A" "R" c || R "T" "Z" c || R "a" "r" c || R "t" "z" c then Some 51 else
    if C "S" c || C "s" c then Some 175 else
    None
  | 175 => (* 983-987 *)
    if C "-" c then Some 40 else
    if R "0" "9" c || R "A" "Z" c || R "a" "z" c then Some 52 else
    None
  | 176 => (* 988-992 *)
    if C "-" c then Some 177 else
    if R "A" "Z" c || R "a" "z" c then Some 25 else
    None
  | 177 => (* 993-999 *)
    if R "0" "9" c then Some 22 else
    if R "A" "K" c || R "M" "W" c || R "Y" "Z" c || R "a" "k" c || R "m" "w" c || R "y" "z" c then Some 23 else
    if C "L" c || C "l" c then Some 178 else
    if C "X" c || C "x" c then Some 24 else
    None
  | 178 => (* 1000-1006 *)
    if C "-" c then Some 33 else
    if R "0" "9" c then Some 36 else
    if R "A" "N" c || R "P" "Z" c || R "a" "n" c || R "p" "z" c then Some 76 else
    if C "O" c || C "o" c then Some 179 else
    None
  | 179 => (* 1007-1013 *)
    if C "-" c then Some 40 else
    if R "0" "9" c then Some 39 else
    if R "A" "I" c || R "K" "Z" c || R "a" "i" c || R "k" "z" c then Some 77 else
    if C "J" c || C "j" c then Some 180 else
    None
  | 180 => (* 1014-1020 *)
    if C "-" c then Some 78 else
    if R "0" "9" c then Some 45 else
    if C "A" c || R "C" "Z" c || C "a" c || R "c" "z" c then Some 46 else
    if C "B" c || C "b" c then Some 181 else
    None
  | 181 => (* 1021-1026 *)
    if C "-" c then Some 48 else
    if R "0" "9" c || R "B" "Z" c || R "b" "z" c then Some 47 else
    if C "A" c || C "a" c then Some 182 else
    None
  | 182 => (* 1027-1031 *)
    if C "-" c then Some 40 else
    if R "0" "9" c || R "A" "Z" c || R "a" "z" c then Some 51 else
    None
  | _ => None
  end.

(** grammar.rs:1036-1078, [LanguageTag::is_accepting]. *)
Definition LanguageTag_is_accepting (state : N) : bool :=
  match state with
  | 10 | 11 | 12 | 13 | 15 | 16 | 18 | 20 | 25 | 27 | 30 | 31
  | 32 | 37 | 46 | 47 | 51 | 52 | 53 | 54 | 56 | 59 | 60 | 61
  | 62 | 63 | 64 | 65 | 66 | 67 | 68 | 69 | 70 | 71 | 73 | 74
  | 75 | 76 | 77 | 81 | 82 | 86 | 87 | 92 | 93 | 94 | 95 | 96
  | 97 | 98 | 101 | 102 | 103 | 104 | 105 | 106 | 110 | 111 | 114 | 121
  | 122 | 145 | 163 | 167 | 168 | 171 | 172 | 173 | 174 | 175 | 176 | 179
  | 180 | 181 | 182
    => true
  | _ => false
  end.

(** grammar.rs:1106-1162, [Privateuse::push]. *)
Definition Privateuse_push (state c : N) : option N :=
  match state with
  | 0 => (* 1108-1111 *)
    if C "X" c || C "x" c then Some 1 else
    None
  | 1 => (* 1112-1115 *)
    if C "-" c then Some 2 else
    None
  | 2 => (* 1116-1119 *)
    if R "0" "9" c || R "A" "Z" c || R "a" "z" c then Some 3 else
    None
  | 3 => (* 1120-1124 *)
    if C "-" c then Some 2 else
    if R "0" "9" c || R "A" "Z" c || R "a" "z" c then Some 4 else
    None
  | 4 => (* 1125-1129 *)
    if C "-" c then Some 2 else
    if R "0" "9" c || R "A" "Z" c || R "a" "z" c then Some 5 else
    None
  | 5 => (* 1130-1134 *)
    if C "-" c then Some 2 else
    if R "0" "9" c || R "A" "Z" c || R "a" "z" c then Some 6 else
    None
  | 6 => (* 1135-1139 *)
    if C "-" c then Some 2 else
    if R "0" "9" c || R "A" "Z" c || R "a" "z" c then Some 7 else
    None
  | 7 => (* 1140-1144 *)
    if C "-" c then Some 2 else
    if R "0" "9" c || R "A" "Z" c || R "a" "z" c then Some 8 else
    None
  | 8 => (* 1145-1149 *)
    if C "-" c then Some 2 else
    if R "0" "9" c || R "A" "Z" c || R "a" "z" c then Some 9 else
    None
  | 9 => (* 1150-1154 *)
    if C "-" c then Some 2 else
    if R "0" "9" c || R "A" "Z" c || R "a" "z" c then Some 10 else
    None
  | 10 => (* 1155-1158 *)
    if C "-" c then Some 2 else
    None
  | _ => None
  end.

(** grammar.rs:1163-1168, [Privateuse::is_accepting]. *)
Definition Privateuse_is_accepting (state : N) : bool :=
  match state with
  | 3 | 4 | 5 | 6 | 7 | 8 | 9 | 10
    => true
  | _ => false
  end.

(** grammar.rs:1196-1233, [PrivateuseSubtag::push]. *)
Definition PrivateuseSubtag_push (state c : N) : option N :=
  match state with
  | 0 => (* 1198-1201 *)
    if R "0" "9" c || R "A" "Z" c || R "a" "z" c then Some 1 else
    None
  | 1 => (* 1202-1205 *)
    if R "0" "9" c || R "A" "Z" c || R "a" "z" c then Some 2 else
    None
  | 2 => (* 1206-1209 *)
    if R "0" "9" c || R "A" "Z" c || R "a" "z" c then Some 3 else
    None
  | 3 => (* 1210-1213 *)
    if R "0" "9" c || R "A" "Z" c || R "a" "z" c then Some 4 else
    None
  | 4 => (* 1214-1217 *)
    if R "0" "9" c || R "A" "Z" c || R "a" "z" c then Some 5 else
    None
  | 5 => (* 1218-1221 *)
    if R "0" "9" c || R "A" "Z" c || R "a" "z" c then Some 6 else
    None
  | 6 => (* 1222-1225 *)
    if R "0" "9" c || R "A" "Z" c || R "a" "z" c then Some 7 else
    None
  | 7 => (* 1226-1229 *)
    if R "0" "9" c || R "A" "Z" c || R "a" "z" c then Some 8 else
    None
  | _ => None
  end.

(** grammar.rs:1234-1239, [PrivateuseSubtag::is_accepting]. *)
Definition PrivateuseSubtag_is_accepting (state : N) : bool :=
  match state with
  | 1 | 2 | 3 | 4 | 5 | 6 | 7 | 8
    => true
  | _ => false
  end.

(** grammar.rs:1267-1642, [Langtag::push]. *)
Definition Langtag_push (state c : N) : option N :=
  match state with
  | 0 => (* 1269-1272 *)
    if R "A" "Z" c || R "a" "z" c then Some 1 else
    None
  | 1 => (* 1273-1276 *)
    if R "A" "Z" c || R "a" "z" c then Some 2 else
    None
  | 2 => (* 1277-1281 *)
    if C "-" c then Some 3 else
    if R "A" "Z" c || R "a" "z" c then Some 4 else
    None
  | 3 => (* 1282-1287 *)
    if R "0" "9" c then Some 5 else
    if R "A" "W" c || R "Y" "Z" c || R "a" "w" c || R "y" "z" c then Some 6 else
    if C "X" c || C "x" c then Some 7 else
    None
  | 4 => (* 1288-1292 *)
    if C "-" c then Some 3 else
    if R "A" "Z" c || R "a" "z" c then Some 8 else
    None
  | 5 => (* 1293-1298 *)
    if C "-" c then Some 16 else
    if R "0" "9" c then Some 17 else
    if R "A" "Z" c || R "a" "z" c then Some 18 else
    None
  | 6 => (* 1299-1304 *)
    if C "-" c then Some 16 else
    if R "0" "9" c then Some 19 else
    if R "A" "Z" c || R "a" "z" c then Some 60 else
    None
  | 7 => (* 1305-1310 *)
    if C "-" c then Some 21 else
    if R "0" "9" c then Some 19 else
    if R "A" "Z" c || R "a" "z" c then Some 60 else
    None
  | 8 => (* 1311-1315 *)
    if C "-" c then Some 9 else
    if R "A" "Z" c || R "a" "z" c then Some 10 else
    None
  | 9 => (* 1316-1321 *)
    if R "0" "9" c then Some 5 else
    if R "A" "W" c || R "Y" "Z" c || R "a" "w" c || R "y" "z" c then Some 11 else
    if C "X" c || C "x" c then Some 12 else
    None
  | 10 => (* 1322-1326 *)
    if C "-" c then Some 9 else
    if R "A" "Z" c || R "a" "z" c then Some 13 else
    None
  | 11 => (* 1327-1332 *)
    if C "-" c then Some 16 else
    if R "0" "9" c then Some 19 else
    if R "A" "Z" c || R "a" "z" c then Some 20 else
    None
  | 12 => (* 1333-1338 *)
    if C "-" c then Some 21 else
    if R "0" "9" c then Some 19 else
    if R "A" "Z" c || R "a" "z" c then Some 20 else
    None
  | 13 => (* 1339-1343 *)
    if C "-" c then Some 9 else
    if R "A" "Z" c || R "a" "z" c then Some 14 else
    None
  | 14 => (* 1344-1348 *)
    if C "-" c then Some 9 else
    if R "A" "Z" c || R "a" "z" c then Some 15 else
    None
  | 15 => (* 1349-1352 *)
    if C "-" c then Some 9 else
    None
  | 16 => (* 1353-1356 *)
    if R "0" "9" c || R "A" "Z" c || R "a" "z" c then Some 22 else
    None
  | 17 => (* 1357-1361 *)
    if R "0" "9" c then Some 59 else
    if R "A" "Z" c || R "a" "z" c then Some 56 else
    None
  | 18 => (* 1362-1365 *)
    if R "0" "9" c || R "A" "Z" c || R "a" "z" c then Some 56 else
    None
  | 19 => (* 1366-1369 *)
    if R "0" "9" c || R "A" "Z" c || R "a" "z" c then Some 23 else
    None
  | 20 => (* 1370-1375 *)
    if C "-" c then Some 24 else
    if R "0" "9" c then Some 23 else
    if R "A" "Z" c || R "a" "z" c then Some 25 else
    None
  | 21 => (* 1376-1379 *)
    if R "0" "9" c || R "A" "Z" c || R "a" "z" c then Some 48 else
    None
  | 22 => (* 1380-1383 *)
    if R "0" "9" c || R "A" "Z" c || R "a" "z" c then Some 38 else
    None
  | 23 => (* 1384-1387 *)
    if R "0" "9" c || R "A" "Z" c || R "a" "z" c then Some 29 else
    None
  | 24 => (* 1388-1393 *)
    if R "0" "9" c then Some 26 else
    if R "A" "W" c || R "Y" "Z" c || R "a" "w" c || R "y" "z" c then Some 27 else
    if C "X" c || C "x" c then Some 28 else
    None
  | 25 => (* 1394-1398 *)
    if R "0" "9" c then Some 29 else
    if R "A" "Z" c || R "a" "z" c then Some 30 else
    None
  | 26 => (* 1399-1403 *)
    if C "-" c then Some 16 else
    if R "0" "9" c || R "A" "Z" c || R "a" "z" c then Some 18 else
    None
  | 27 => (* 1404-1408 *)
    if C "-" c then Some 16 else
    if R "0" "9" c || R "A" "Z" c || R "a" "z" c then Some 19 else
    None
  | 28 => (* 1409-1413 *)
    if C "-" c then Some 21 else
    if R "0" "9" c || R "A" "Z" c || R "a" "z" c then Some 19 else
    None
  | 29 => (* 1414-1417 *)
    if R "0" "9" c || R "A" "Z" c || R "a" "z" c then Some 31 else
    None
  | 30 => (* 1418-1422 *)
    if C "-" c then Some 32 else
    if R "0" "9" c || R "A" "Z" c || R "a" "z" c then Some 31 else
    None
  | 31 => (* 1423-1427 *)
    if C "-" c then Some 24 else
    if R "0" "9" c || R "A" "Z" c || R "a" "z" c then Some 35 else
    None
  | 32 => (* 1428-1433 *)
    if R "0" "9" c then Some 5 else
    if R "A" "W" c || R "Y" "Z" c || R "a" "w" c || R "y" "z" c then Some 33 else
    if C "X" c || C "x" c then Some 34 else
    None
  | 33 => (* 1434-1439 *)
    if C "-" c then Some 16 else
    if R "0" "9" c then Some 19 else
    if R "A" "Z" c || R "a" "z" c then Some 58 else
    None
  | 34 => (* 1440-1445 *)
    if C "-" c then Some 21 else
    if R "0" "9" c then Some 19 else
    if R "A" "Z" c || R "a" "z" c then Some 58 else
    None
  | 35 => (* 1446-1450 *)
    if C "-" c then Some 24 else
    if R "0" "9" c || R "A" "Z" c || R "a" "z" c then Some 36 else
    None
  | 36 => (* 1451-1455 *)
    if C "-" c then Some 24 else
    if R "0" "9" c || R "A" "Z" c || R "a" "z" c then Some 37 else
    None
  | 37 => (* 1456-1459 *)
    if C "-" c then Some 24 else
    None
  | 38 => (* 1460-1464 *)
    if C "-" c then Some 39 else
    if R "0" "9" c || R "A" "Z" c || R "a" "z" c then Some 40 else
    None
  | 39 => (* 1465-1469 *)
    if R "0" "9" c || R "A" "W" c || R "Y" "Z" c || R "a" "w" c || R "y" "z" c then Some 41 else
    if C "X" c || C "x" c then Some 42 else
    None
  | 40 => (* 1470-1474 *)
    if C "-" c then Some 39 else
    if R "0" "9" c || R "A" "Z" c || R "a" "z" c then Some 43 else
    None
  | 41 => (* 1475-1479 *)
    if C "-" c then Some 16 else
    if R "0" "9" c || R "A" "Z" c || R "a" "z" c then Some 38 else
    None
  | 42 => (* 1480-1484 *)
    if C "-" c then Some 21 else
    if R "0" "9" c || R "A" "Z" c || R "a" "z" c then Some 38 else
    None
  | 43 => (* 1485-1489 *)
    if C "-" c then Some 39 else
    if R "0" "9" c || R "A" "Z" c || R "a" "z" c then Some 44 else
    None
  | 44 => (* 1490-1494 *)
    if C "-" c then Some 39 else
    if R "0" "9" c || R "A" "Z" c || R "a" "z" c then Some 45 else
    None
  | 45 => (* 1495-1499 *)
    if C "-" c then Some 39 else
    if R "0" "9" c || R "A" "Z" c || R "a" "z" c then Some 46 else
    None
  | 46 => (* 1500-1504 *)
    if C "-" c then Some 39 else
    if R "0" "9" c || R "A" "Z" c || R "a" "z" c then Some 47 else
    None
  | 47 => (* 1505-1508 *)
    if C "-" c then Some 39 else
    None
  | 48 => (* 1509-1513 *)
    if C "-" c then Some 21 else
    if R "0" "9" c || R "A" "Z" c || R "a" "z" c then Some 49 else
    None
  | 49 => (* 1514-1518 *)
    if C "-" c then Some 21 else
    if R "0" "9" c || R "A" "Z" c || R "a" "z" c then Some 50 else
    None
  | 50 => (* 1519-1523 *)
    if C "-" c then Some 21 else
    if R "0" "9" c || R "A" "Z" c || R "a" "z" c then Some 51 else
    None
  | 51 => (* 1524-1528 *)
    if C "-" c then Some 21 else
    if R "0" "9" c || R "A" "Z" c || R "a" "z" c then Some 52 else
    None
  | 52 => (* 1529-1533 *)
    if C "-" c then Some 21 else
    if R "0" "9" c || R "A" "Z" c || R "a" "z" c then Some 53 else
    None
  | 53 => (* 1534-1538 *)
    if C "-" c then Some 21 else
    if R "0" "9" c || R "A" "Z" c || R "a" "z" c then Some 54 else
    None
  | 54 => (* 1539-1543 *)
    if C "-" c then Some 21 else
    if R "0" "9" c || R "A" "Z" c || R "a" "z" c then Some 55 else
    None
  | 55 => (* 1544-1547 *)
    if C "-" c then Some 21 else
    None
  | 56 => (* 1548-1551 *)
    if R "0" "9" c || R "A" "Z" c || R "a" "z" c then Some 57 else
    None
  | 57 => (* 1552-1556 *)
    if C "-" c then Some 24 else
    if R "0" "9" c || R "A" "Z" c || R "a" "z" c then Some 31 else
    None
  | 58 => (* 1557-1561 *)
    if C "-" c then Some 24 else
    if R "0" "9" c || R "A" "Z" c || R "a" "z" c then Some 23 else
    None
  | 59 => (* 1562-1566 *)
    if C "-" c then Some 24 else
    if R "0" "9" c || R "A" "Z" c || R "a" "z" c then Some 57 else
    None
  | 60 => (* 1567-1572 *)
    if C "-" c then Some 24 else
    if R "0" "9" c then Some 23 else
    if R "A" "Z" c || R "a" "z" c then Some 61 else
    None
  | 61 => (* 1573-1578 *)
    if C "-" c then Some 62 else
    if R "0" "9" c then Some 29 else
    if R "A" "Z" c || R "a" "z" c then Some 30 else
    None
  | 62 => (* 1579-1584 *)
    if R "0" "9" c then Some 5 else
    if R "A" "W" c || R "Y" "Z" c || R "a" "w" c || R "y" "z" c then Some 63 else
    if C "X" c || C "x" c then Some 64 else
    None
  | 63 => (* 1585-1590 *)
    if C "-" c then Some 16 else
    if R "0" "9" c then Some 19 else
    if R "A" "Z" c || R "a" "z" c then Some 65 else
    None
  | 64 => (* 1591-1596 *)
    if C "-" c then Some 21 else
    if R "0" "9" c then Some 19 else
    if R "A" "Z" c || R "a" "z" c then Some 65 else
    None
  | 65 => (* 1597-1602 *)
    if C "-" c then Some 24 else
    if R "0" "9" c then Some 23 else
    if R "A" "Z" c || R "a" "z" c then Some 66 else
    None
  | 66 => (* 1603-1608 *)
    if C "-" c then Some 67 else
    if R "0" "9" c then Some 29 else
    if R "A" "Z" c || R "a" "z" c then Some 30 else
    None
  | 67 => (* 1609-1614 *)
    if R "0" "9" c then Some 5 else
    if R "A" "W" c || R "Y" "Z" c || R "a" "w" c || R "y" "z" c then Some 68 else
    if C "X" c || C "x" c then Some 69 else
    None
  | 68 => (* 1615-1620 *)
    if C "-" c then Some 16 else
    if R "0" "9" c then Some 19 else
    if R "A" "Z" c || R "a" "z" c then Some 70 else
    None
  | 69 => (* 1621-1626 *)
    if C "-" c then Some 21 else
    if R "0" "9" c then Some 19 else
    if R "A" "Z" c || R "a" "z" c then Some 70 else
    None
  | 70 => (* 1627-1632 *)
    if C "-" c then Some 24 else
    if R "0" "9" c then Some 23 else
    if R "A" "Z" c || R "a" "z" c then Some 71 else
    None
  | 71 => (* 1633-1638 *)
    if C "-" c then Some 9 else
    if R "0" "9" c then Some 29 else
    if R "A" "Z" c || R "a" "z" c then Some 30 else
    None
  | _ => None
  end.

(** grammar.rs:1643-1666, [Langtag::is_accepting]. *)
Definition Langtag_is_accepting (state : N) : bool :=
  match state with
  | 2 | 4 | 8 | 10 | 13 | 14 | 15 | 20 | 30 | 31 | 35 | 36
  | 37 | 38 | 40 | 43 | 44 | 45 | 46 | 47 | 48 | 49 | 50 | 51
  | 52 | 53 | 54 | 55 | 57 | 58 | 59 | 60 | 61 | 65 | 66 | 70
  | 71
    => true
  | _ => false
  end.

(** grammar.rs:1694-1777, [Language::push]. *)
Definition Language_push (state c : N) : option N :=
  match state with
  | 0 => (* 1696-1699 *)
    if R "A" "Z" c || R "a" "z" c then Some 1 else
    None
  | 1 => (* 1700-1703 *)
    if R "A" "Z" c || R "a" "z" c then Some 2 else
    None
  | 2 => (* 1704-1708 *)
    if C "-" c then Some 3 else
    if R "A" "Z" c || R "a" "z" c then Some 4 else
    None
  | 3 => (* 1709-1712 *)
    if R "A" "Z" c || R "a" "z" c then Some 5 else
    None
  | 4 => (* 1713-1717 *)
    if C "-" c then Some 3 else
    if R "A" "Z" c || R "a" "z" c then Some 6 else
    None
  | 5 => (* 1718-1721 *)
    if R "A" "Z" c || R "a" "z" c then Some 11 else
    None
  | 6 => (* 1722-1725 *)
    if R "A" "Z" c || R "a" "z" c then Some 7 else
    None
  | 7 => (* 1726-1729 *)
    if R "A" "Z" c || R "a" "z" c then Some 8 else
    None
  | 8 => (* 1730-1733 *)
    if R "A" "Z" c || R "a" "z" c then Some 9 else
    None
  | 9 => (* 1734-1737 *)
    if R "A" "Z" c || R "a" "z" c then Some 10 else
    None
  | 11 => (* 1738-1741 *)
    if R "A" "Z" c || R "a" "z" c then Some 12 else
    None
  | 12 => (* 1742-1745 *)
    if C "-" c then Some 13 else
    None
  | 13 => (* 1746-1749 *)
    if R "A" "Z" c || R "a" "z" c then Some 14 else
    None
  | 14 => (* 1750-1753 *)
    if R "A" "Z" c || R "a" "z" c then Some 15 else
    None
  | 15 => (* 1754-1757 *)
    if R "A" "Z" c || R "a" "z" c then Some 16 else
    None
  | 16 => (* 1758-1761 *)
    if C "-" c then Some 17 else
    None
  | 17 => (* 1762-1765 *)
    if R "A" "Z" c || R "a" "z" c then Some 18 else
    None
  | 18 => (* 1766-1769 *)
    if R "A" "Z" c || R "a" "z" c then Some 19 else
    None
  | 19 => (* 1770-1773 *)
    if R "A" "Z" c || R "a" "z" c then Some 10 else
    None
  | _ => None
  end.

(** grammar.rs:1778-1783, [Language::is_accepting]. *)
Definition Language_is_accepting (state : N) : bool :=
  match state with
  | 2 | 4 | 6 | 7 | 8 | 9 | 10 | 12 | 16
    => true
  | _ => false
  end.

(** grammar.rs:1811-1828, [Primary::push]. *)
Definition Primary_push (state c : N) : option N :=
  match state with
  | 0 => (* 1813-1816 *)
    if R "A" "Z" c || R "a" "z" c then Some 1 else
    None
  | 1 => (* 1817-1820 *)
    if R "A" "Z" c || R "a" "z" c then Some 2 else
    None
  | 2 => (* 1821-1824 *)
    if R "A" "Z" c || R "a" "z" c then Some 3 else
    None
  | _ => None
  end.

(** grammar.rs:1829-1831, [Primary::is_accepting]. *)
Definition Primary_is_accepting (state : N) : bool :=
  match state with
  | 2 | 3
    => true
  | _ => false
  end.

(** grammar.rs:1859-1908, [Extlang::push]. *)
Definition Extlang_push (state c : N) : option N :=
  match state with
  | 0 => (* 1861-1864 *)
    if R "A" "Z" c || R "a" "z" c then Some 1 else
    None
  | 1 => (* 1865-1868 *)
    if R "A" "Z" c || R "a" "z" c then Some 2 else
    None
  | 2 => (* 1869-1872 *)
    if R "A" "Z" c || R "a" "z" c then Some 3 else
    None
  | 3 => (* 1873-1876 *)
    if C "-" c then Some 4 else
    None
  | 4 => (* 1877-1880 *)
    if R "A" "Z" c || R "a" "z" c then Some 5 else
    None
  | 5 => (* 1881-1884 *)
    if R "A" "Z" c || R "a" "z" c then Some 6 else
    None
  | 6 => (* 1885-1888 *)
    if R "A" "Z" c || R "a" "z" c then Some 7 else
    None
  | 7 => (* 1889-1892 *)
    if C "-" c then Some 8 else
    None
  | 8 => (* 1893-1896 *)
    if R "A" "Z" c || R "a" "z" c then Some 9 else
    None
  | 9 => (* 1897-1900 *)
    if R "A" "Z" c || R "a" "z" c then Some 10 else
    None
  | 10 => (* 1901-1904 *)
    if R "A" "Z" c || R "a" "z" c then Some 11 else
    None
  | _ => None
  end.

(** grammar.rs:1909-1911, [Extlang::is_accepting]. *)
Definition Extlang_is_accepting (state : N) : bool :=
  match state with
  | 3 | 7 | 11
    => true
  | _ => false
  end.

(** grammar.rs:1939-1956, [ExtlangTag::push]. *)
Definition ExtlangTag_push (state c : N) : option N :=
  match state with
  | 0 => (* 1941-1944 *)
    if R "A" "Z" c || R "a" "z" c then Some 1 else
    None
  | 1 => (* 1945-1948 *)
    if R "A" "Z" c || R "a" "z" c then Some 2 else
    None
  | 2 => (* 1949-1952 *)
    if R "A" "Z" c || R "a" "z" c then Some 3 else
    None
  | _ => None
  end.

(** grammar.rs:1957-1959, [ExtlangTag::is_accepting]. *)
Definition ExtlangTag_is_accepting (state : N) : bool :=
  match state with
  | 3
    => true
  | _ => false
  end.

(** grammar.rs:1987-2008, [Script::push]. *)
Definition Script_push (state c : N) : option N :=
  match state with
  | 0 => (* 1989-1992 *)
    if R "A" "Z" c || R "a" "z" c then Some 1 else
    None
  | 1 => (* 1993-1996 *)
    if R "A" "Z" c || R "a" "z" c then Some 2 else
    None
  | 2 => (* 1997-2000 *)
    if R "A" "Z" c || R "a" "z" c then Some 3 else
    None
  | 3 => (* 2001-2004 *)
    if R "A" "Z" c || R "a" "z" c then Some 4 else
    None
  | _ => None
  end.

(** grammar.rs:2009-2011, [Script::is_accepting]. *)
Definition Script_is_accepting (state : N) : bool :=
  match state with
  | 4
    => true
  | _ => false
  end.

(** grammar.rs:2039-2061, [Region::push]. *)
Definition Region_push (state c : N) : option N :=
  match state with
  | 0 => (* 2041-2045 *)
    if R "0" "9" c then Some 1 else
    if R "A" "Z" c || R "a" "z" c then Some 2 else
    None
  | 1 => (* 2046-2049 *)
    if R "0" "9" c then Some 3 else
    None
  | 2 => (* 2050-2053 *)
    if R "A" "Z" c || R "a" "z" c then Some 4 else
    None
  | 3 => (* 2054-2057 *)
    if R "0" "9" c then Some 4 else
    None
  | _ => None
  end.

(** grammar.rs:2062-2064, [Region::is_accepting]. *)
Definition Region_is_accepting (state : N) : bool :=
  match state with
  | 4
    => true
  | _ => false
  end.

(** grammar.rs:2092-2146, [Variant::push]. *)
Definition Variant_push (state c : N) : option N :=
  match state with
  | 0 => (* 2094-2098 *)
    if R "0" "9" c then Some 1 else
    if R "A" "Z" c || R "a" "z" c then Some 2 else
    None
  | 1 => (* 2099-2102 *)
    if R "0" "9" c || R "A" "Z" c || R "a" "z" c then Some 3 else
    None
  | 2 => (* 2103-2106 *)
    if R "0" "9" c || R "A" "Z" c || R "a" "z" c then Some 4 else
    None
  | 3 => (* 2107-2110 *)
    if R "0" "9" c || R "A" "Z" c || R "a" "z" c then Some 11 else
    None
  | 4 => (* 2111-2114 *)
    if R "0" "9" c || R "A" "Z" c || R "a" "z" c then Some 5 else
    None
  | 5 => (* 2115-2118 *)
    if R "0" "9" c || R "A" "Z" c || R "a" "z" c then Some 6 else
    None
  | 6 => (* 2119-2122 *)
    if R "0" "9" c || R "A" "Z" c || R "a" "z" c then Some 7 else
    None
  | 7 => (* 2123-2126 *)
    if R "0" "9" c || R "A" "Z" c || R "a" "z" c then Some 8 else
    None
  | 8 => (* 2127-2130 *)
    if R "0" "9" c || R "A" "Z" c || R "a" "z" c then Some 9 else
    None
  | 9 => (* 2131-2134 *)
    if R "0" "9" c || R "A" "Z" c || R "a" "z" c then Some 10 else
    None
  | 11 => (* 2135-2138 *)
    if R "0" "9" c || R "A" "Z" c || R "a" "z" c then Some 12 else
    None
  | 12 => (* 2139-2142 *)
    if R "0" "9" c || R "A" "Z" c || R "a" "z" c then Some 7 else
    None
  | _ => None
  end.

(** grammar.rs:2147-2149, [Variant::is_accepting]. *)
Definition Variant_is_accepting (state : N) : bool :=
  match state with
  | 7 | 8 | 9 | 10 | 12
    => true
  | _ => false
  end.

(** grammar.rs:2177-2244, [Variants::push]. *)
Definition Variants_push (state c : N) : option N :=
  match state with
  | 0 => (* 2179-2183 *)
    if R "0" "9" c then Some 1 else
    if R "A" "Z" c || R "a" "z" c then Some 2 else
    None
  | 1 => (* 2184-2187 *)
    if R "0" "9" c || R "A" "Z" c || R "a" "z" c then Some 3 else
    None
  | 2 => (* 2188-2191 *)
    if R "0" "9" c || R "A" "Z" c || R "a" "z" c then Some 4 else
    None
  | 3 => (* 2192-2195 *)
    if R "0" "9" c || R "A" "Z" c || R "a" "z" c then Some 12 else
    None
  | 4 => (* 2196-2199 *)
    if R "0" "9" c || R "A" "Z" c || R "a" "z" c then Some 5 else
    None
  | 5 => (* 2200-2203 *)
    if R "0" "9" c || R "A" "Z" c || R "a" "z" c then Some 6 else
    None
  | 6 => (* 2204-2207 *)
    if R "0" "9" c || R "A" "Z" c || R "a" "z" c then Some 7 else
    None
  | 7 => (* 2208-2212 *)
    if C "-" c then Some 8 else
    if R "0" "9" c || R "A" "Z" c || R "a" "z" c then Some 9 else
    None
  | 8 => (* 2213-2217 *)
    if R "0" "9" c then Some 1 else
    if R "A" "Z" c || R "a" "z" c then Some 2 else
    None
  | 9 => (* 2218-2222 *)
    if C "-" c then Some 8 else
    if R "0" "9" c || R "A" "Z" c || R "a" "z" c then Some 10 else
    None
  | 10 => (* 2223-2227 *)
    if C "-" c then Some 8 else
    if R "0" "9" c || R "A" "Z" c || R "a" "z" c then Some 11 else
    None
  | 11 => (* 2228-2231 *)
    if C "-" c then Some 8 else
    None
  | 12 => (* 2232-2235 *)
    if R "0" "9" c || R "A" "Z" c || R "a" "z" c then Some 13 else
    None
  | 13 => (* 2236-2240 *)
    if C "-" c then Some 8 else
    if R "0" "9" c || R "A" "Z" c || R "a" "z" c then Some 7 else
    None
  | _ => None
  end.

(** grammar.rs:2245-2247, [Variants::is_accepting]. *)
Definition Variants_is_accepting (state : N) : bool :=
  match state with
  | 0 | 7 | 9 | 10 | 11 | 13
    => true
  | _ => false
  end.

(** grammar.rs:2275-2330, [Extension::push]. *)
Definition Extension_push (state c : N) : option N :=
  match state with
  | 0 => (* 2277-2280 *)
    if R "0" "9" c || R "A" "W" c || R "Y" "Z" c || R "a" "w" c || R "y" "z" c then Some 1 else
    None
  | 1 => (* 2281-2284 *)
    if C "-" c then Some 2 else
    None
  | 2 => (* 2285-2288 *)
    if R "0" "9" c || R "A" "Z" c || R "a" "z" c then Some 3 else
    None
  | 3 => (* 2289-2292 *)
    if R "0" "9" c || R "A" "Z" c || R "a" "z" c then Some 4 else
    None
  | 4 => (* 2293-2297 *)
    if C "-" c then Some 2 else
    if R "0" "9" c || R "A" "Z" c || R "a" "z" c then Some 5 else
    None
  | 5 => (* 2298-2302 *)
    if C "-" c then Some 2 else
    if R "0" "9" c || R "A" "Z" c || R "a" "z" c then Some 6 else
    None
  | 6 => (* 2303-2307 *)
    if C "-" c then Some 2 else
    if R "0" "9" c || R "A" "Z" c || R "a" "z" c then Some 7 else
    None
  | 7 => (* 2308-2312 *)
    if C "-" c then Some 2 else
    if R "0" "9" c || R "A" "Z" c || R "a" "z" c then Some 8 else
    None
  | 8 => (* 2313-2317 *)
    if C "-" c then Some 2 else
    if R "0" "9" c || R "A" "Z" c || R "a" "z" c then Some 9 else
    None
  | 9 => (* 2318-2322 *)
    if C "-" c then Some 2 else
    if R "0" "9" c || R "A" "Z" c || R "a" "z" c then Some 10 else
    None
  | 10 => (* 2323-2326 *)
    if C "-" c then Some 2 else
    None
  | _ => None
  end.

(** grammar.rs:2331-2333, [Extension::is_accepting]. *)
Definition Extension_is_accepting (state : N) : bool :=
  match state with
  | 4 | 5 | 6 | 7 | 8 | 9 | 10
    => true
  | _ => false
  end.

(** grammar.rs:2361-2398, [ExtensionSubtag::push]. *)
Definition ExtensionSubtag_push (state c : N) : option N :=
  match state with
  | 0 => (* 2363-2366 *)
    if R "0" "9" c || R "A" "Z" c || R "a" "z" c then Some 1 else
    None
  | 1 => (* 2367-2370 *)
    if R "0" "9" c || R "A" "Z" c || R "a" "z" c then Some 2 else
    None
  | 2 => (* 2371-2374 *)
    if R "0" "9" c || R "A" "Z" c || R "a" "z" c then Some 3 else
    None
  | 3 => (* 2375-2378 *)
    if R "0" "9" c || R "A" "Z" c || R "a" "z" c then Some 4 else
    None
  | 4 => (* 2379-2382 *)
    if R "0" "9" c || R "A" "Z" c || R "a" "z" c then Some 5 else
    None
  | 5 => (* 2383-2386 *)
    if R "0" "9" c || R "A" "Z" c || R "a" "z" c then Some 6 else
    None
  | 6 => (* 2387-2390 *)
    if R "0" "9" c || R "A" "Z" c || R "a" "z" c then Some 7 else
    None
  | 7 => (* 2391-2394 *)
    if R "0" "9" c || R "A" "Z" c || R "a" "z" c then Some 8 else
    None
  | _ => None
  end.

(** grammar.rs:2399-2401, [ExtensionSubtag::is_accepting]. *)
Definition ExtensionSubtag_is_accepting (state : N) : bool :=
  match state with
  | 2 | 3 | 4 | 5 | 6 | 7 | 8
    => true
  | _ => false
  end.

(** grammar.rs:2429-2494, [Extensions::push]. *)
Definition Extensions_push (state c : N) : option N :=
  match state with
  | 0 => (* 2431-2434 *)
    if R "0" "9" c || R "A" "W" c || R "Y" "Z" c || R "a" "w" c || R "y" "z" c then Some 1 else
    None
  | 1 => (* 2435-2438 *)
    if C "-" c then Some 2 else
    None
  | 2 => (* 2439-2442 *)
    if R "0" "9" c || R "A" "Z" c || R "a" "z" c then Some 3 else
    None
  | 3 => (* 2443-2446 *)
    if R "0" "9" c || R "A" "Z" c || R "a" "z" c then Some 4 else
    None
  | 4 => (* 2447-2451 *)
    if C "-" c then Some 5 else
    if R "0" "9" c || R "A" "Z" c || R "a" "z" c then Some 6 else
    None
  | 5 => (* 2452-2456 *)
    if R "0" "9" c || R "A" "W" c || R "Y" "Z" c || R "a" "w" c || R "y" "z" c then Some 7 else
    if C "X" c || C "x" c then Some 3 else
    None
  | 6 => (* 2457-2461 *)
    if C "-" c then Some 5 else
    if R "0" "9" c || R "A" "Z" c || R "a" "z" c then Some 8 else
    None
  | 7 => (* 2462-2466 *)
    if C "-" c then Some 2 else
    if R "0" "9" c || R "A" "Z" c || R "a" "z" c then Some 4 else
    None
  | 8 => (* 2467-2471 *)
    if C "-" c then Some 5 else
    if R "0" "9" c || R "A" "Z" c || R "a" "z" c then Some 9 else
    None
  | 9 => (* 2472-2476 *)
    if C "-" c then Some 5 else
    if R "0" "9" c || R "A" "Z" c || R "a" "z" c then Some 10 else
    None
  | 10 => (* 2477-2481 *)
    if C "-" c then Some 5 else
    if R "0" "9" c || R "A" "Z" c || R "a" "z" c then Some 11 else
    None
  | 11 => (* 2482-2486 *)
    if C "-" c then Some 5 else
    if R "0" "9" c || R "A" "Z" c || R "a" "z" c then Some 12 else
    None
  | 12 => (* 2487-2490 *)
    if C "-" c then Some 5 else
    None
  | _ => None
  end.

(** grammar.rs:2495-2500, [Extensions::is_accepting]. *)
Definition Extensions_is_accepting (state : N) : bool :=
  match state with
  | 0 | 4 | 6 | 8 | 9 | 10 | 11 | 12
    => true
  | _ => false
  end.
