(** Model of the arithmetic of /repo/src with overflow: the functions of Validate.v, Utils.v and Normal.v again, with
    the additions and subtractions on [usize] and [u8] as the compiler gives them. *)
From Verif Require Import Base GrammarRs Validate Utils Normal.

(** What the meaning of [+] and [-] depends on: [usize::MAX], and whether overflow panics (debug builds) or wraps
    (release builds). *)
Record machine := Machine { usize_max : nat; overflow_checks : bool }.

(** [a + b] on [usize]. *)
Definition add (M : machine) (a b : nat) : outcome nat :=
  if a + b <=? usize_max M then Ret (a + b)
  else if overflow_checks M then Panic
  else Ret (a + b - (usize_max M + 1)).
(** [a - b] on [usize]. *)
Definition minus (M : machine) (a b : nat) : outcome nat :=
  if b <=? a then Ret (a - b)
  else if overflow_checks M then Panic
  else Ret (a + (usize_max M + 1) - b).
(** [a + n] on [u8]. *)
Definition add_u8 (M : machine) (a : byte) (n : N) : outcome byte :=
  match Strings.Byte.of_N (code a + n) with
  | Some b => Ret b
  | None =>
    if overflow_checks M then Panic
    else match Strings.Byte.of_N ((code a + n) mod 256) with Some b => Ret b | None => Panic end
  end.

(** * grammar.rs *)

(** grammar.rs:1085-1095, with [i += len] as above. *)
Fixpoint c_validate_loop (M : machine) (d : decoder) (A : automaton) (fuel : nat) (s : bytes) (i : nat) (state : N)
  : outcome bool :=
  if i <? length s then
    match fuel with
    | O => OutOfFuel
    | S fuel' =>
      match d s i with
      | Some (c, len) =>
        match push A state c with
        | Some state' => let! j := add M i len in c_validate_loop M d A fuel' s j state'
        | None => Ret false
        end
      | None => Ret false
      end
    end
  else Ret (is_accepting A state).
(** grammar.rs:1079-1097. *)
Definition c_validate (M : machine) (A : automaton) (s : bytes) : outcome bool :=
  c_validate_loop M decode_utf8_char A (length s) s 0 initial.
(** [X::new], see [new] in Validate.v. *)
Definition c_new (M : machine) (A : automaton) (s : bytes) : outcome (result bytes bytes) :=
  let! ok := c_validate M A s in
  Ret (if ok then Ok s else Err s).
Definition c_new_is_ok (M : machine) (A : automaton) (s : bytes) : outcome bool :=
  let! r := c_new M A s in Ret (is_ok r).

(** * utils.rs *)

(** utils.rs:6-8. *)
Definition c_into_smallcase (M : machine) (c : byte) : outcome byte :=
  if is_ascii_uppercase c then add_u8 M c 32 else Ret c.

(** utils.rs:12-16.  The index is that of a [Range], which does not overflow. *)
Fixpoint c_eq_loop (M : machine) (a b : bytes) (n i : nat) : outcome bool :=
  match n with
  | O => Ret true
  | S n' =>
    let! x := index a i in
    let! x := c_into_smallcase M x in
    let! y := index b i in
    let! y := c_into_smallcase M y in
    if negb (beq x y) then Ret false else c_eq_loop M a b n' (i + 1)
  end.
(** utils.rs:10-22. *)
Definition c_eq (M : machine) (a b : bytes) : outcome bool :=
  if length a =? length b then c_eq_loop M a b (length a) 0 else Ret false.

(** utils.rs:24-28. *)
Fixpoint c_hash (M : machine) (H : hasher) (s : bytes) (st : hstate H) : outcome (hstate H) :=
  match s with
  | [] => Ret st
  | b :: rest => let! c := c_into_smallcase M b in c_hash M H rest (write_u8 H st c)
  end.

(** utils.rs:33-48, with [i += 1] as above. *)
Fixpoint c_cmp_loop (M : machine) (fuel : nat) (a b : bytes) (i : nat) : outcome comparison :=
  match fuel with
  | O => OutOfFuel
  | S fuel' =>
    if length a <=? i then
      if length b <=? i then Ret Eq else Ret Gt
    else if length b <=? i then Ret Lt
    else
      let! x := index a i in
      let! x := c_into_smallcase M x in
      let! y := index b i in
      let! y := c_into_smallcase M y in
      match byte_cmp x y with
      | Eq => let! j := add M i 1 in c_cmp_loop M fuel' a b j
      | ord => Ret ord
      end
  end.
(** utils.rs:30-49. *)
Definition c_cmp (M : machine) (a b : bytes) : outcome comparison := c_cmp_loop M (S (length a)) a b 0.

(** * normal/mod.rs: scans *)

(** normal/mod.rs:185-200, with [offset = i + 1] and [i += 1] as above. *)
Fixpoint c_find_list_end_loop (M : machine) (fuel : nat) (s : bytes) (f : nat -> bytes -> outcome bool)
  (i offset end_ : nat) : outcome nat :=
  if i <? length s then
    match fuel with
    | O => OutOfFuel
    | S fuel' =>
      let! b := index s i in
      if beq b dash then
        let! subtag := slice s offset i in
        let! ok := f offset subtag in
        if ok then
          let! offset' := add M i 1 in
          let! i' := add M i 1 in
          c_find_list_end_loop M fuel' s f i' offset' i
        else Ret end_
      else
        let! i' := add M i 1 in
        c_find_list_end_loop M fuel' s f i' offset end_
    end
  else
    let! subtag := slice_from s offset in
    let! ok := f offset subtag in
    Ret (if ok then length s else end_).
(** normal/mod.rs:181-201. *)
Definition c_find_list_end (M : machine) (s : bytes) (offset : nat) (f : nat -> bytes -> outcome bool) : outcome nat :=
  c_find_list_end_loop M (length s) s f offset offset offset.

(** normal/mod.rs:203-215, with [i += 1] as above. *)
Fixpoint c_find_segment_end_loop (M : machine) (fuel : nat) (s : bytes) (i : nat) : outcome nat :=
  if i <? length s then
    match fuel with
    | O => OutOfFuel
    | S fuel' =>
      let! b := index s i in
      if beq b dash then Ret i
      else let! i' := add M i 1 in c_find_segment_end_loop M fuel' s i'
    end
  else Ret i.
Definition c_find_segment_end (M : machine) (s : bytes) (offset : nat) : outcome nat :=
  c_find_segment_end_loop M (length s) s offset.

(** normal/mod.rs:221-231, with [i + 1] and [i -= 1] as above. *)
Fixpoint c_find_segment_start_loop (M : machine) (fuel : nat) (s : bytes) (i : nat) : outcome nat :=
  let! b := index s i in
  if beq b dash then add M i 1
  else if 0 <? i then
    match fuel with
    | O => OutOfFuel
    | S fuel' => let! i' := minus M i 1 in c_find_segment_start_loop M fuel' s i'
    end
  else Ret 0.
(** normal/mod.rs:217-235, with [end - 1] as above. *)
Definition c_find_segment_start (M : machine) (s : bytes) (end_ : nat) : outcome nat :=
  if 0 <? end_ then
    let! i := minus M end_ 1 in c_find_segment_start_loop M end_ s i
  else Ret 0.

(** * normal/mod.rs: accessors *)

(** normal/mod.rs:34-38 and 41-43. *)
Definition c_language_end (M : machine) (s : bytes) : outcome nat :=
  c_find_list_end M s 0 (fun i segment => if i =? 0 then Ret true else c_new_is_ok M ExtlangTag segment).
Definition c_language (M : machine) (s : bytes) : outcome bytes :=
  let! e := c_language_end M s in slice_to s e.
(** normal/mod.rs:45-56 and 59-63. *)
Definition c_script_range (M : machine) (s : bytes) : outcome range_result :=
  let! language_end := c_language_end M s in
  let! offset := add M language_end 1 in
  let! e := c_find_list_end M s offset (fun i segment =>
    if i =? offset then c_new_is_ok M Script segment else Ret false) in
  Ret (if negb (e =? offset) then Ok (offset, e) else Err language_end).
Definition c_script (M : machine) (s : bytes) : outcome (option bytes) :=
  let! r := c_script_range M s in
  match r with
  | Ok (a, b) => omap Some (slice s a b)
  | Err _ => Ret None
  end.
(** normal/mod.rs:65-80 and 83-87. *)
Definition c_region_range (M : machine) (s : bytes) : outcome range_result :=
  let! r := c_script_range M s in
  let script_end := end_of r in
  let! offset := add M script_end 1 in
  let! e := c_find_list_end M s offset (fun i segment =>
    if i =? offset then c_new_is_ok M Region segment else Ret false) in
  Ret (if negb (e =? offset) then Ok (offset, e) else Err script_end).
Definition c_region (M : machine) (s : bytes) : outcome (option bytes) :=
  let! r := c_region_range M s in
  match r with
  | Ok (a, b) => omap Some (slice s a b)
  | Err _ => Ret None
  end.
(** normal/mod.rs:89-102 and 105-107. *)
Definition c_variants_range (M : machine) (s : bytes) : outcome (nat * nat) :=
  let! r := c_region_range M s in
  let region_end := end_of r in
  let! offset := add M region_end 1 in
  let! e := c_find_list_end M s offset (fun _ segment => c_new_is_ok M Variant segment) in
  Ret (if e =? offset then (region_end, region_end) else (offset, e)).
Definition c_variants (M : machine) (s : bytes) : outcome bytes :=
  let! r := c_variants_range M s in slice s (fst r) (snd r).
(** normal/mod.rs:109-122 and 125-127. *)
Definition c_extensions_range (M : machine) (s : bytes) : outcome (nat * nat) :=
  let! r := c_variants_range M s in
  let variants_end := snd r in
  let! offset := add M variants_end 1 in
  let! e := c_find_list_end M s offset (fun _ segment =>
    let! a := Singleton_from_string segment in
    if is_ok a then Ret true else c_new_is_ok M ExtensionSubtag segment) in
  Ret (if e =? offset then (variants_end, variants_end) else (offset, e)).
Definition c_extensions (M : machine) (s : bytes) : outcome bytes :=
  let! r := c_extensions_range M s in slice s (fst r) (snd r).
(** normal/mod.rs:129-137 and 140-143. *)
Definition c_private_use (M : machine) (s : bytes) : outcome (option bytes) :=
  let! r := c_variants_range M s in
  let variants_end := snd r in
  if variants_end <? length s then
    let! i := add M variants_end 1 in omap Some (slice_from s i)
  else Ret None.

(** * Iterators *)

(** private_use.rs:73-82, extension.rs:180-189 and extlang.rs:80-89, with [end + 1] as above. *)
Definition c_segment_next (M : machine) (it : iter) : outcome (option bytes * iter) :=
  if it_offset it <? length (it_data it) then
    let! e := c_find_segment_end M (it_data it) (it_offset it) in
    let! item := slice (it_data it) (it_offset it) e in
    let! o := add M e 1 in
    Ret (Some item, Iter (it_data it) o)
  else Ret (None, it).

(** extension.rs:218-234, with [i + 1], [i + 2] and [i += 1] as above. *)
Fixpoint c_get_loop (M : machine) (fuel : nat) (s : bytes) (singleton : byte) (i : nat) (starting : bool)
  : outcome (option bytes) :=
  let! i1 := add M i 1 in
  if i1 <? length s then
    match fuel with
    | O => OutOfFuel
    | S fuel' =>
      let! b := index s i in
      if starting then
        let! hit :=
          (if beq b singleton then
             let! i1 := add M i 1 in let! b1 := index s i1 in Ret (beq b1 dash)
           else Ret false) in
        if hit then
          let! i2 := add M i 2 in
          let! e := c_find_list_end M s i2 (fun _ segment => Ret (1 <? length segment)) in
          omap Some (slice s i e)
        else let! i' := add M i 1 in c_get_loop M fuel' s singleton i' false
      else let! i' := add M i 1 in c_get_loop M fuel' s singleton i' (beq b dash)
    end
  else Ret None.
(** extension.rs:214-235. *)
Definition c_get (M : machine) (s : bytes) (singleton : byte) : outcome (option bytes) :=
  c_get_loop M (length s) s singleton 0 true.

(** extension.rs:286-300, with [offset + 2] and [end + 1] as above. *)
Definition c_extensions_next (M : machine) (it : iter) : outcome (option bytes * iter) :=
  if it_offset it <? length (it_data it) then
    let! offset := add M (it_offset it) 2 in
    let! e := c_find_list_end M (it_data it) offset (fun _ segment => c_new_is_ok M ExtensionSubtag segment) in
    let! item := slice (it_data it) (it_offset it) e in
    let! o := add M e 1 in
    Ret (Some item, Iter (it_data it) o)
  else Ret (None, it).

(** variant.rs:132-141, with [end + 1] as above. *)
Definition c_variants_next (M : machine) (it : viter) : outcome (option bytes * viter) :=
  if v_offset it <? v_end it then
    let! e := c_find_segment_end M (v_data it) (v_offset it) in
    let! item := slice (v_data it) (v_offset it) e in
    let! o := add M e 1 in
    Ret (Some item, VIter (v_data it) o (v_end it))
  else Ret (None, it).
(** variant.rs:145-156, with [start - 1] as above. *)
Definition c_variants_next_back (M : machine) (it : viter) : outcome (option bytes * viter) :=
  if v_offset it <? v_end it then
    let! start := c_find_segment_start M (v_data it) (v_end it) in
    let! item := slice (v_data it) start (v_end it) in
    let! e := (if 0 <? start then minus M start 1 else Ret 0) in
    Ret (Some item, VIter (v_data it) (v_offset it) e)
  else Ret (None, it).
