(** Model of the running time of /repo/src: the functions of Validate.v, Utils.v, Grandfathered.v, Normal.v and
    LangTag.v again, counting the iterations of their loops.  Between two iterations there is a bounded number of
    steps: a comparison, an indexing, one [push] of an automaton, a slicing (which copies nothing). *)
From Verif Require Import Base GrammarRs Validate Utils Grandfathered Normal LangTag.

(** The iterations made, and the outcome. *)
Definition costed (A : Type) : Type := nat * outcome A.
Definition free {A} (x : outcome A) : costed A := (0, x).
Definition tick {A} (x : costed A) : costed A := (S (fst x), snd x).
Definition kbind {A B} (x : costed A) (f : A -> costed B) : costed B :=
  match snd x with
  | Ret a => let y := f a in (fst x + fst y, snd y)
  | Panic => (fst x, Panic)
  | OutOfFuel => (fst x, OutOfFuel)
  end.
Notation "'let$' x ':=' e 'in' k" := (kbind e (fun x => k))
  (at level 200, x pattern, e at level 200, k at level 200, right associativity).

(** * grammar.rs *)

(** grammar.rs:1085-1095. *)
Fixpoint k_validate_loop (d : decoder) (A : automaton) (fuel : nat) (s : bytes) (i : nat) (state : N) : costed bool :=
  if i <? length s then
    match fuel with
    | O => free OutOfFuel
    | S fuel' => tick
      match d s i with
      | Some (c, len) =>
        match push A state c with
        | Some state' => k_validate_loop d A fuel' s (i + len) state'
        | None => free (Ret false)
        end
      | None => free (Ret false)
      end
    end
  else free (Ret (is_accepting A state)).
(** grammar.rs:1079-1097, [X::new] and [X::new(..).is_ok()]. *)
Definition k_new (A : automaton) (s : bytes) : costed (result bytes bytes) :=
  let$ ok := k_validate_loop decode_utf8_char A (length s) s 0 initial in
  free (Ret (if ok then Ok s else Err s)).
Definition k_new_is_ok (A : automaton) (s : bytes) : costed bool :=
  let$ r := k_new A s in free (Ret (is_ok r)).

(** * utils.rs *)

(** utils.rs:12-16. *)
Fixpoint k_eq_loop (a b : bytes) (n i : nat) : costed bool :=
  match n with
  | O => free (Ret true)
  | S n' => tick (
    let$ x := free (index a i) in
    let$ y := free (index b i) in
    if negb (beq (into_smallcase x) (into_smallcase y)) then free (Ret false)
    else k_eq_loop a b n' (i + 1))
  end.
(** utils.rs:10-22. *)
Definition k_eq (a b : bytes) : costed bool :=
  if length a =? length b then k_eq_loop a b (length a) 0 else free (Ret false).

(** utils.rs:24-28. *)
Fixpoint k_hash (H : hasher) (s : bytes) (st : hstate H) : costed (hstate H) :=
  match s with
  | [] => free (Ret st)
  | b :: rest => tick (k_hash H rest (write_u8 H st (into_smallcase b)))
  end.

(** utils.rs:33-48. *)
Fixpoint k_cmp_loop (fuel : nat) (a b : bytes) (i : nat) : costed comparison :=
  match fuel with
  | O => free OutOfFuel
  | S fuel' => tick (
    if length a <=? i then
      if length b <=? i then free (Ret Eq) else free (Ret Gt)
    else if length b <=? i then free (Ret Lt)
    else
      let$ x := free (index a i) in
      let$ y := free (index b i) in
      match byte_cmp (into_smallcase x) (into_smallcase y) with
      | Eq => k_cmp_loop fuel' a b (i + 1)
      | ord => free (Ret ord)
      end)
  end.
(** utils.rs:30-49. *)
Definition k_cmp (a b : bytes) : costed comparison := k_cmp_loop (S (length a)) a b 0.

(** * grandfathered.rs *)

(** grandfathered.rs:138-142, 133-146 and 65-70. *)
Fixpoint k_try_from_loop (l : list grandfathered) (s : bytes) : costed (result grandfathered bytes) :=
  match l with
  | [] => free (Ret (Err s))
  | t :: l' => tick (
    let$ eq := k_eq (Grandfathered_as_bytes t) s in
    if eq then free (Ret (Ok t)) else k_try_from_loop l' s)
  end.
Definition k_grandfathered_new (s : bytes) : costed (result grandfathered bytes) :=
  let$ r := k_try_from_loop GRANDFATHERED s in
  free (Ret match r with Ok g => Ok g | Err _ => Err s end).

(** * normal/mod.rs: scans *)

(** normal/mod.rs:185-200. *)
Fixpoint k_find_list_end_loop (fuel : nat) (s : bytes) (f : nat -> bytes -> costed bool) (i offset end_ : nat)
  : costed nat :=
  if i <? length s then
    match fuel with
    | O => free OutOfFuel
    | S fuel' => tick (
      let$ b := free (index s i) in
      if beq b dash then
        let$ subtag := free (slice s offset i) in
        let$ ok := f offset subtag in
        if ok then k_find_list_end_loop fuel' s f (i + 1) (i + 1) i
        else free (Ret end_)
      else k_find_list_end_loop fuel' s f (i + 1) offset end_)
    end
  else
    let$ subtag := free (slice_from s offset) in
    let$ ok := f offset subtag in
    free (Ret (if ok then length s else end_)).
(** normal/mod.rs:181-201. *)
Definition k_find_list_end (s : bytes) (offset : nat) (f : nat -> bytes -> costed bool) : costed nat :=
  k_find_list_end_loop (length s) s f offset offset offset.

(** normal/mod.rs:203-215. *)
Fixpoint k_find_segment_end_loop (fuel : nat) (s : bytes) (i : nat) : costed nat :=
  if i <? length s then
    match fuel with
    | O => free OutOfFuel
    | S fuel' => tick (
      let$ b := free (index s i) in
      if beq b dash then free (Ret i) else k_find_segment_end_loop fuel' s (i + 1))
    end
  else free (Ret i).
Definition k_find_segment_end (s : bytes) (offset : nat) : costed nat := k_find_segment_end_loop (length s) s offset.

(** normal/mod.rs:221-231 and 217-235. *)
Fixpoint k_find_segment_start_loop (s : bytes) (i : nat) : costed nat :=
  tick (
    let$ b := free (index s i) in
    if beq b dash then free (Ret (i + 1))
    else match i with
         | S i' => k_find_segment_start_loop s i'
         | O => free (Ret 0)
         end).
Definition k_find_segment_start (s : bytes) (end_ : nat) : costed nat :=
  match end_ with
  | S i => k_find_segment_start_loop s i
  | O => free (Ret 0)
  end.

(** * normal/mod.rs: accessors *)

(** normal/mod.rs:34-38 and 41-43. *)
Definition k_language_end (s : bytes) : costed nat :=
  k_find_list_end s 0 (fun i segment => if i =? 0 then free (Ret true) else k_new_is_ok ExtlangTag segment).
Definition k_language (s : bytes) : costed bytes :=
  let$ e := k_language_end s in free (slice_to s e).
(** normal/mod.rs:45-56 and 59-63. *)
Definition k_script_range (s : bytes) : costed range_result :=
  let$ language_end := k_language_end s in
  let offset := language_end + 1 in
  let$ e := k_find_list_end s offset (fun i segment =>
    if i =? offset then k_new_is_ok Script segment else free (Ret false)) in
  free (Ret (if negb (e =? offset) then Ok (offset, e) else Err language_end)).
Definition k_script (s : bytes) : costed (option bytes) :=
  let$ r := k_script_range s in
  free match r with
       | Ok (a, b) => omap Some (slice s a b)
       | Err _ => Ret None
       end.
(** normal/mod.rs:65-80 and 83-87. *)
Definition k_region_range (s : bytes) : costed range_result :=
  let$ r := k_script_range s in
  let script_end := end_of r in
  let offset := script_end + 1 in
  let$ e := k_find_list_end s offset (fun i segment =>
    if i =? offset then k_new_is_ok Region segment else free (Ret false)) in
  free (Ret (if negb (e =? offset) then Ok (offset, e) else Err script_end)).
Definition k_region (s : bytes) : costed (option bytes) :=
  let$ r := k_region_range s in
  free match r with
       | Ok (a, b) => omap Some (slice s a b)
       | Err _ => Ret None
       end.
(** normal/mod.rs:89-102 and 105-107. *)
Definition k_variants_range (s : bytes) : costed (nat * nat) :=
  let$ r := k_region_range s in
  let region_end := end_of r in
  let offset := region_end + 1 in
  let$ e := k_find_list_end s offset (fun _ segment => k_new_is_ok Variant segment) in
  free (Ret (if e =? offset then (region_end, region_end) else (offset, e))).
Definition k_variants (s : bytes) : costed bytes :=
  let$ r := k_variants_range s in free (slice s (fst r) (snd r)).
(** normal/mod.rs:109-122 and 125-127. *)
Definition k_extensions_range (s : bytes) : costed (nat * nat) :=
  let$ r := k_variants_range s in
  let variants_end := snd r in
  let offset := variants_end + 1 in
  let$ e := k_find_list_end s offset (fun _ segment =>
    let$ a := free (Singleton_from_string segment) in
    if is_ok a then free (Ret true) else k_new_is_ok ExtensionSubtag segment) in
  free (Ret (if e =? offset then (variants_end, variants_end) else (offset, e))).
Definition k_extensions (s : bytes) : costed bytes :=
  let$ r := k_extensions_range s in free (slice s (fst r) (snd r)).
(** normal/mod.rs:129-137 and 140-143. *)
Definition k_private_use (s : bytes) : costed (option bytes) :=
  let$ r := k_variants_range s in
  let variants_end := snd r in
  free (if variants_end <? length s then omap Some (slice_from s (variants_end + 1)) else Ret None).

(** * Iterators; a call of [next] or [next_back] counts as one iteration of the caller's loop. *)

(** private_use.rs:73-82, extension.rs:180-189 and extlang.rs:80-89. *)
Definition k_segment_next (it : iter) : costed (option bytes * iter) :=
  tick (if it_offset it <? length (it_data it) then
    let$ e := k_find_segment_end (it_data it) (it_offset it) in
    let$ item := free (slice (it_data it) (it_offset it) e) in
    free (Ret (Some item, Iter (it_data it) (e + 1)))
  else free (Ret (None, it))).

(** extension.rs:218-234 and 214-235. *)
Fixpoint k_get_loop (fuel : nat) (s : bytes) (singleton : byte) (i : nat) (starting : bool) : costed (option bytes) :=
  if i + 1 <? length s then
    match fuel with
    | O => free OutOfFuel
    | S fuel' => tick (
      let$ b := free (index s i) in
      if starting then
        let$ hit := free (if beq b singleton then let! b1 := index s (i + 1) in Ret (beq b1 dash) else Ret false) in
        if hit then
          let$ e := k_find_list_end s (i + 2) (fun _ segment => free (Ret (1 <? length segment))) in
          free (omap Some (slice s i e))
        else k_get_loop fuel' s singleton (i + 1) false
      else k_get_loop fuel' s singleton (i + 1) (beq b dash))
    end
  else free (Ret None).
Definition k_get (s : bytes) (singleton : byte) : costed (option bytes) := k_get_loop (length s) s singleton 0 true.

(** extension.rs:286-300. *)
Definition k_extensions_next (it : iter) : costed (option bytes * iter) :=
  tick (if it_offset it <? length (it_data it) then
    let offset := it_offset it + 2 in
    let$ e := k_find_list_end (it_data it) offset (fun _ segment => k_new_is_ok ExtensionSubtag segment) in
    let$ item := free (slice (it_data it) (it_offset it) e) in
    free (Ret (Some item, Iter (it_data it) (e + 1)))
  else free (Ret (None, it))).

(** variant.rs:132-141. *)
Definition k_variants_next (it : viter) : costed (option bytes * viter) :=
  tick (if v_offset it <? v_end it then
    let$ e := k_find_segment_end (v_data it) (v_offset it) in
    let$ item := free (slice (v_data it) (v_offset it) e) in
    free (Ret (Some item, VIter (v_data it) (e + 1) (v_end it)))
  else free (Ret (None, it))).
(** variant.rs:145-156. *)
Definition k_variants_next_back (it : viter) : costed (option bytes * viter) :=
  tick (if v_offset it <? v_end it then
    let$ start := k_find_segment_start (v_data it) (v_end it) in
    let$ item := free (slice (v_data it) start (v_end it)) in
    free (Ret (Some item, VIter (v_data it) (v_offset it) (if 0 <? start then start - 1 else 0)))
  else free (Ret (None, it))).

(** * lib.rs *)

(** lib.rs:149-161, [as_normal], [as_private_use], [as_grandfathered]. *)
Definition k_as_normal (s : bytes) : costed (option bytes) := let$ r := k_new Langtag s in free (Ret (ok r)).
Definition k_as_private_use (s : bytes) : costed (option bytes) := let$ r := k_new Privateuse s in free (Ret (ok r)).
Definition k_as_grandfathered (s : bytes) : costed (option grandfathered) :=
  let$ r := k_grandfathered_new s in free (Ret (ok r)).
(** lib.rs:87-95, [language]. *)
Definition k_LangTag_language (s : bytes) : costed (option bytes) :=
  let$ r := k_new Langtag s in
  match r with
  | Ok t => let$ l := k_language t in free (Ret (Some l))
  | Err _ =>
    let$ g := k_grandfathered_new s in
    free (Ret match g with Ok t => Grandfathered_language t | Err _ => None end)
  end.
(** lib.rs:98-124, [script], [region], [variants], [extensions], [private_use]. *)
Definition k_normal {A} (f : bytes -> costed A) (otherwise : A) (s : bytes) : costed A :=
  let$ n := k_as_normal s in
  match n with Some t => f t | None => free (Ret otherwise) end.
Definition k_LangTag_script : bytes -> costed (option bytes) := k_normal k_script None.
Definition k_LangTag_region : bytes -> costed (option bytes) := k_normal k_region None.
Definition k_LangTag_variants : bytes -> costed bytes := k_normal k_variants Variants_EMPTY.
Definition k_LangTag_extensions : bytes -> costed bytes := k_normal k_extensions Extensions_EMPTY.
Definition k_LangTag_private_use : bytes -> costed (option bytes) := k_normal k_private_use None.
(** lib.rs:169-177, [as_typed]. *)
Definition k_as_typed (s : bytes) : costed typed :=
  let$ n := k_new Langtag s in
  match n with
  | Ok t => free (Ret (TNormal t))
  | Err _ =>
    let$ p := k_new Privateuse s in
    match p with
    | Ok t => free (Ret (TPrivateUse t))
    | Err _ =>
      let$ g := k_grandfathered_new s in
      match g with
      | Ok g => free (Ret (TGrandfathered g))
      | Err _ => free Panic
      end
    end
  end.
