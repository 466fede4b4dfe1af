(** Model of /repo/src/normal/**.

    A value of a newtype ([NormalLangTag], [Language], ...) is its bytes; [X::new_unchecked(s)] is [s].
    Closures passed to [find_list_end] may themselves run fallible code, so they return an [outcome]. *)
From Verif Require Import Base Validate Utils.

(** * normal/mod.rs: scanning functions *)

(** normal/mod.rs:185-200, the [while] loop of [find_list_end] and what follows it. *)
Fixpoint find_list_end_loop (fuel : nat) (s : bytes) (f : nat -> bytes -> outcome bool)
  (i offset end_ : nat) : outcome nat :=
  if i <? length s then
    match fuel with
    | O => OutOfFuel
    | S fuel' =>
      let! b := index s i in
      if beq b dash then
        let! subtag := slice s offset i in
        let! ok := f offset subtag in
        if ok then find_list_end_loop fuel' s f (i + 1) (i + 1) i
        else Ret end_
      else find_list_end_loop fuel' s f (i + 1) offset end_
    end
  else
    let! subtag := slice_from s offset in
    let! ok := f offset subtag in
    Ret (if ok then length s else end_).

(** normal/mod.rs:181-201, [find_list_end]. *)
Definition find_list_end (s : bytes) (offset : nat) (f : nat -> bytes -> outcome bool) : outcome nat :=
  find_list_end_loop (length s) s f offset offset offset.

(** normal/mod.rs:206-214, the loop of [find_segment_end]. *)
Fixpoint find_segment_end_loop (fuel : nat) (s : bytes) (i : nat) : outcome nat :=
  if i <? length s then
    match fuel with
    | O => OutOfFuel
    | S fuel' =>
      let! b := index s i in
      if beq b dash then Ret i else find_segment_end_loop fuel' s (i + 1)
    end
  else Ret i.

(** normal/mod.rs:203-215, [find_segment_end]. *)
Definition find_segment_end (s : bytes) (offset : nat) : outcome nat :=
  find_segment_end_loop (length s) s offset.

(** normal/mod.rs:221-231, the [loop] of [find_segment_start]; structural in [i]. *)
Fixpoint find_segment_start_loop (s : bytes) (i : nat) : outcome nat :=
  let! b := index s i in
  if beq b dash then Ret (i + 1)
  else match i with
       | S i' => find_segment_start_loop s i'
       | O => Ret 0
       end.

(** normal/mod.rs:217-235, [find_segment_start]. *)
Definition find_segment_start (s : bytes) (end_ : nat) : outcome nat :=
  match end_ with
  | S i => find_segment_start_loop s i
  | O => Ret 0
  end.

(** * normal/extension.rs: Singleton *)

(** normal/extension.rs:14-20, [Singleton::new]; the value [Singleton(c)] is the byte [c]. *)
Definition Singleton_new (c : byte) : result byte byte :=
  if negb (beq c "x"%byte) && negb (beq c "X"%byte) && is_ascii_alphanumeric c then Ok c else Err c.

(** normal/extension.rs:50-57, [TryFrom<u8>]. *)
Definition Singleton_try_from_u8 (b : byte) : result byte byte := Singleton_new b.

(** [codepoint as u8]: truncation. *)
Definition as_u8 (c : N) : byte :=
  match Strings.Byte.of_N (c mod 256) with Some b => b | None => x00 end.

(** normal/extension.rs:59-72, [TryFrom<char>]. *)
Definition Singleton_try_from_char (c : N) : result byte N :=
  if (c <? 255)%N then
    match Singleton_new (as_u8 c) with
    | Ok s => Ok s
    | Err _ => Err c
    end
  else Err c.

(** normal/extension.rs:22-32, [Singleton::from_string].  [str.chars().next().unwrap()] decodes the first
    character; a [&str] is valid UTF-8, so that a failure to decode (modelled as [Panic]) cannot happen. *)
Definition Singleton_from_string (s : bytes) : outcome (result byte bytes) :=
  if length s =? 1 then
    match decode_utf8_char s 0 with
    | Some (c, _) =>
      Ret match Singleton_try_from_char c with
          | Ok b => Ok b
          | Err _ => Err s
          end
    | None => Panic
    end
  else Ret (Err s).

(** normal/extension.rs:42-48, [FromStr]. *)
Definition Singleton_from_str (s : bytes) : outcome (result byte bytes) :=
  let! r := Singleton_from_string s in
  Ret match r with Ok b => Ok b | Err _ => Err s end.

(** normal/extension.rs:36-38, [unwrap]; 74-78, [PartialEq<u8>]; 80-84, [PartialEq<char>]. *)
Definition Singleton_unwrap (b : byte) : byte := b.
Definition Singleton_eq_u8 (a b : byte) : bool := beq a b.
Definition Singleton_eq_char (a : byte) (c : N) : bool := (code a =? c)%N.

(** normal/extension.rs:10, derived [PartialEq] and [Ord] of [Singleton(u8)]. *)
Definition Singleton_eq (a b : byte) : bool := beq a b.
Definition Singleton_cmp (a b : byte) : comparison := byte_cmp a b.

(** * normal/mod.rs: NormalLangTag *)

(** normal/mod.rs:34-38, [language_end]. *)
Definition language_end (s : bytes) : outcome nat :=
  find_list_end s 0 (fun i segment =>
    if i =? 0 then Ret true else new_is_ok ExtlangTag segment).

(** normal/mod.rs:41-43, [NormalLangTag::language]. *)
Definition NormalLangTag_language (s : bytes) : outcome bytes :=
  let! e := language_end s in slice_to s e.

(** [Result<Range<usize>, usize>] of [script_range] and [region_range]. *)
Definition range_result := result (nat * nat) nat.

(** normal/mod.rs:45-56, [script_range]. *)
Definition script_range (s : bytes) : outcome range_result :=
  let! language_end := language_end s in
  let offset := language_end + 1 in
  let! e := find_list_end s offset (fun i segment =>
    if i =? offset then new_is_ok Script segment else Ret false) in
  Ret (if negb (e =? offset) then Ok (offset, e) else Err language_end).

(** normal/mod.rs:59-63, [NormalLangTag::script]. *)
Definition NormalLangTag_script (s : bytes) : outcome (option bytes) :=
  let! r := script_range s in
  match r with
  | Ok (a, b) => omap Some (slice s a b)
  | Err _ => Ret None
  end.

(** normal/mod.rs:66-69 and 90-93: [match .. { Ok(range) => range.end, Err(i) => i }]. *)
Definition end_of (r : range_result) : nat :=
  match r with Ok (_, e) => e | Err i => i end.

(** normal/mod.rs:65-80, [region_range]. *)
Definition region_range (s : bytes) : outcome range_result :=
  let! r := script_range s in
  let script_end := end_of r in
  let offset := script_end + 1 in
  let! e := find_list_end s offset (fun i segment =>
    if i =? offset then new_is_ok Region segment else Ret false) in
  Ret (if negb (e =? offset) then Ok (offset, e) else Err script_end).

(** normal/mod.rs:83-87, [NormalLangTag::region]. *)
Definition NormalLangTag_region (s : bytes) : outcome (option bytes) :=
  let! r := region_range s in
  match r with
  | Ok (a, b) => omap Some (slice s a b)
  | Err _ => Ret None
  end.

(** normal/mod.rs:89-102, [variants_range]. *)
Definition variants_range (s : bytes) : outcome (nat * nat) :=
  let! r := region_range s in
  let region_end := end_of r in
  let offset := region_end + 1 in
  let! e := find_list_end s offset (fun _ segment => new_is_ok Variant segment) in
  Ret (if e =? offset then (region_end, region_end) else (offset, e)).

(** normal/mod.rs:105-107, [NormalLangTag::variants]. *)
Definition NormalLangTag_variants (s : bytes) : outcome bytes :=
  let! r := variants_range s in slice s (fst r) (snd r).

(** normal/mod.rs:109-122, [extensions_range]. *)
Definition extensions_range (s : bytes) : outcome (nat * nat) :=
  let! r := variants_range s in
  let variants_end := snd r in
  let offset := variants_end + 1 in
  let! e := find_list_end s offset (fun _ segment =>
    let! a := Singleton_from_string segment in
    if is_ok a then Ret true else new_is_ok ExtensionSubtag segment) in
  Ret (if e =? offset then (variants_end, variants_end) else (offset, e)).

(** normal/mod.rs:125-127, [NormalLangTag::extensions]. *)
Definition NormalLangTag_extensions (s : bytes) : outcome bytes :=
  let! r := extensions_range s in slice s (fst r) (snd r).

(** normal/mod.rs:129-137, [private_use_offset]. *)
Definition private_use_offset (s : bytes) : outcome (option nat) :=
  let! r := variants_range s in
  let variants_end := snd r in
  Ret (if variants_end <? length s then Some (variants_end + 1) else None).

(** normal/mod.rs:140-143, [NormalLangTag::private_use]. *)
Definition NormalLangTag_private_use (s : bytes) : outcome (option bytes) :=
  let! o := private_use_offset s in
  match o with
  | Some i => omap Some (slice_from s i)
  | None => Ret None
  end.

(** * Forward iterators *)

(** The fields [data], [offset] of [PrivateUseIter] (private_use.rs:52-55), [ExtensionIter]
    (extension.rs:159-162), [ExtensionsIter] (extension.rs:272-275) and [LanguageExtensionIter]
    (extlang.rs:62-65). *)
Record iter := Iter { it_data : bytes; it_offset : nat }.

(** [Default::default()], derived: private_use.rs:51, extension.rs:158, extlang.rs:61;
    [empty()]: private_use.rs:65-67, extension.rs:172-174, extlang.rs:72-74. *)
Definition iter_default : iter := Iter [] 0.

(** private_use.rs:58-63, [PrivateUseIter::new]; private_use.rs:20-22, [PrivateUse::iter]. *)
Definition PrivateUseIter_new (data : bytes) : iter := Iter data 2.
Definition PrivateUse_iter (s : bytes) : iter := PrivateUseIter_new s.

(** private_use.rs:73-82, [PrivateUseIter::next]. *)
Definition PrivateUseIter_next (it : iter) : outcome (option bytes * iter) :=
  if it_offset it <? length (it_data it) then
    let! e := find_segment_end (it_data it) (it_offset it) in
    let! item := slice (it_data it) (it_offset it) e in
    Ret (Some item, Iter (it_data it) (e + 1))
  else Ret (None, it).

(** normal/mod.rs:145-150, [NormalLangTag::private_use_subtags]. *)
Definition NormalLangTag_private_use_subtags (s : bytes) : outcome iter :=
  let! p := NormalLangTag_private_use s in
  Ret match p with
      | Some p => PrivateUse_iter p
      | None => iter_default
      end.

(** extension.rs:165-170, [ExtensionIter::new]; extension.rs:127-129, [Extension::iter]. *)
Definition ExtensionIter_new (data : bytes) : iter := Iter data 2.
Definition Extension_iter (s : bytes) : iter := ExtensionIter_new s.

(** extension.rs:180-189, [ExtensionIter::next]. *)
Definition ExtensionIter_next (it : iter) : outcome (option bytes * iter) :=
  if it_offset it <? length (it_data it) then
    let! e := find_segment_end (it_data it) (it_offset it) in
    let! item := slice (it_data it) (it_offset it) e in
    Ret (Some item, Iter (it_data it) (e + 1))
  else Ret (None, it).

(** extension.rs:123-125, [Extension::singleton]. *)
Definition Extension_singleton (s : bytes) : outcome byte := index s 0.

(** extlang.rs:68-70, [LanguageExtensionIter::new]; extlang.rs:30-32, [LanguageExtension::iter]. *)
Definition LanguageExtensionIter_new (data : bytes) : iter := Iter data 0.
Definition LanguageExtension_iter (s : bytes) : iter := LanguageExtensionIter_new s.

(** extlang.rs:80-89, [LanguageExtensionIter::next]. *)
Definition LanguageExtensionIter_next (it : iter) : outcome (option bytes * iter) :=
  if it_offset it <? length (it_data it) then
    let! e := find_segment_end (it_data it) (it_offset it) in
    let! item := slice (it_data it) (it_offset it) e in
    Ret (Some item, Iter (it_data it) (e + 1))
  else Ret (None, it).

(** * normal/extension.rs: Extensions *)

(** extension.rs:212, [Extensions::EMPTY]; variant.rs:67, [Variants::EMPTY]. *)
Definition Extensions_EMPTY : bytes := [].
Definition Variants_EMPTY : bytes := [].

(** extension.rs:218-234, the [while] loop of [Extensions::get]. *)
Fixpoint Extensions_get_loop (fuel : nat) (s : bytes) (singleton : byte) (i : nat) (starting : bool)
  : outcome (option bytes) :=
  if i + 1 <? length s then
    match fuel with
    | O => OutOfFuel
    | S fuel' =>
      let! b := index s i in
      if starting then
        let! hit :=
          (if beq b singleton then let! b1 := index s (i + 1) in Ret (beq b1 dash) else Ret false) in
        if hit then
          let! e := find_list_end s (i + 2) (fun _ segment => Ret (1 <? length segment)) in
          omap Some (slice s i e)
        else Extensions_get_loop fuel' s singleton (i + 1) false
      else Extensions_get_loop fuel' s singleton (i + 1) (beq b dash)
    end
  else Ret None.

(** extension.rs:214-235, [Extensions::get]. *)
Definition Extensions_get (s : bytes) (singleton : byte) : outcome (option bytes) :=
  Extensions_get_loop (length s) s singleton 0 true.

(** extension.rs:278-280, [ExtensionsIter::new]; 237-239, [Extensions::iter]. *)
Definition ExtensionsIter_new (data : bytes) : iter := Iter data 0.
Definition Extensions_iter (s : bytes) : iter := ExtensionsIter_new s.

(** extension.rs:286-300, [ExtensionsIter::next]. *)
Definition ExtensionsIter_next (it : iter) : outcome (option bytes * iter) :=
  if it_offset it <? length (it_data it) then
    let offset := it_offset it + 2 in
    let! e := find_list_end (it_data it) offset (fun _ segment => new_is_ok ExtensionSubtag segment) in
    let! item := slice (it_data it) (it_offset it) e in
    Ret (Some item, Iter (it_data it) (e + 1))
  else Ret (None, it).

(** extension.rs:241-243, [Extensions::iter_extension]. *)
Definition Extensions_iter_extension (s : bytes) (singleton : byte) : outcome iter :=
  let! e := Extensions_get s singleton in
  Ret match e with
      | Some e => Extension_iter e
      | None => iter_default
      end.

(** * normal/variant.rs: VariantsIter *)

(** variant.rs:109-113, the fields of [VariantsIter]. *)
Record viter := VIter { v_data : bytes; v_offset : nat; v_end : nat }.

(** variant.rs:108 (derived [Default]) and 124-126, [empty]. *)
Definition viter_default : viter := VIter [] 0 0.

(** variant.rs:116-122, [VariantsIter::new]; 69-71, [Variants::iter]. *)
Definition VariantsIter_new (data : bytes) : viter := VIter data 0 (length data).
Definition Variants_iter (s : bytes) : viter := VariantsIter_new s.

(** variant.rs:132-141, [VariantsIter::next]. *)
Definition VariantsIter_next (it : viter) : outcome (option bytes * viter) :=
  if v_offset it <? v_end it then
    let! e := find_segment_end (v_data it) (v_offset it) in
    let! item := slice (v_data it) (v_offset it) e in
    Ret (Some item, VIter (v_data it) (e + 1) (v_end it))
  else Ret (None, it).

(** variant.rs:145-156, [VariantsIter::next_back]. *)
Definition VariantsIter_next_back (it : viter) : outcome (option bytes * viter) :=
  if v_offset it <? v_end it then
    let! start := find_segment_start (v_data it) (v_end it) in
    let! item := slice (v_data it) start (v_end it) in
    Ret (Some item, VIter (v_data it) (v_offset it) (if 0 <? start then start - 1 else 0))
  else Ret (None, it).

(** variant.rs:73-75, [Variants::first]; 77-79, [Variants::last]. *)
Definition Variants_first (s : bytes) : outcome (option bytes) :=
  omap fst (VariantsIter_next (Variants_iter s)).
Definition Variants_last (s : bytes) : outcome (option bytes) :=
  omap fst (VariantsIter_next_back (Variants_iter s)).

(** * normal/language/mod.rs: Language *)

(** [str::split_once('-')] of core: the parts before and after the first '-', if any. *)
Fixpoint split_once (s : bytes) : option (bytes * bytes) :=
  match s with
  | [] => None
  | b :: rest =>
    if beq b dash then Some ([], rest)
    else match split_once rest with
         | Some (p, q) => Some (b :: p, q)
         | None => None
         end
  end.

(** language/mod.rs:33-40, [Language::primary]. *)
Definition Language_primary (s : bytes) : bytes :=
  match split_once s with
  | Some (primary, _) => primary
  | None => s
  end.

(** language/mod.rs:52-56, [Language::extension]. *)
Definition Language_extension (s : bytes) : option bytes :=
  match split_once s with
  | Some (_, ext) => Some ext
  | None => None
  end.

(** language/mod.rs:60-64, [Language::extension_subtags]. *)
Definition Language_extension_subtags (s : bytes) : iter :=
  match Language_extension s with
  | Some e => LanguageExtension_iter e
  | None => iter_default
  end.
