(** Specification, independent of the model.

    Nothing here refers to the automata, the scanning functions or any other
    definition that models /repo/src: only [byte], [bytes] (= [list byte]),
    [code] (numeric value of a byte), [bs] (string literals), [beq] and [dash] ("-") of
    [Base] are used. *)
From Verif Require Import Base.

(** * 1. ABNF: regular expressions and what they match *)

Inductive re : Type :=
| Void
| Eps
| Cls (l : list (N * N))          (* one byte in one of the ranges *)
| Cat (a b : re)
| Alt (a b : re)
| Star (a : re).

Definition in_cls (l : list (N * N)) (c : N) : bool :=
  existsb (fun r => (fst r <=? c)%N && (c <=? snd r)%N) l.

Inductive matches : re -> bytes -> Prop :=
| m_eps : matches Eps []
| m_cls : forall l b, in_cls l (code b) = true -> matches (Cls l) [b]
| m_cat : forall a b s t, matches a s -> matches b t -> matches (Cat a b) (s ++ t)
| m_alt_l : forall a b s, matches a s -> matches (Alt a b) s
| m_alt_r : forall a b s, matches b s -> matches (Alt a b) s
| m_star_nil : forall a, matches (Star a) []
| m_star_app : forall a s t, matches a s -> matches (Star a) t -> matches (Star a) (s ++ t).

(** ABNF operators (RFC 5234): [[r]], [1*r], [n r], [lo*hi r]. *)
Definition opt (r : re) : re := Alt r Eps.
Definition plus (r : re) : re := Cat r (Star r).
Fixpoint times (n : nat) (r : re) : re :=
  match n with O => Eps | S n' => Cat r (times n' r) end.
Fixpoint upto (n : nat) (r : re) : re :=
  match n with O => Eps | S n' => opt (Cat r (upto n' r)) end.
Definition rep (lo hi : nat) (r : re) : re := Cat (times lo r) (upto (hi - lo) r).
Fixpoint alts (l : list re) : re :=
  match l with [] => Void | [r] => r | r :: l' => Alt r (alts l') end.
Infix "%%" := Cat (at level 40, left associativity).

(** RFC 5234: a quoted string matches in any letter case. *)
Definition is_upper (b : byte) : bool := (65 <=? code b)%N && (code b <=? 90)%N.
Definition is_lower (b : byte) : bool := (97 <=? code b)%N && (code b <=? 122)%N.
Definition any_case (b : byte) : re :=
  if is_upper b then Cls [(code b, code b); (code b + 32, code b + 32)]%N
  else if is_lower b then Cls [(code b - 32, code b - 32); (code b, code b)]%N
  else Cls [(code b, code b)].
Fixpoint lit_bytes (s : bytes) : re :=
  match s with [] => Eps | b :: s' => Cat (any_case b) (lit_bytes s') end.
Definition lit (s : string) : re := lit_bytes (bs s).

(** * 2. The productions of /repo/src/grammar.abnf (RFC 5646, section 2.1), in the order of the file *)

Definition ALPHA : re := Cls [(65, 90); (97, 122)]%N.
Definition DIGIT : re := Cls [(48, 57)]%N.
Definition alphanum : re := Alt ALPHA DIGIT.                              (* grammar.abnf:84 *)
Definition hyphen : re := lit "-".

Definition abnf_singleton : re :=                                          (* 43-47 *)
  alts [DIGIT; Cls [(65, 87)]; Cls [(89, 90)]; Cls [(97, 119)]; Cls [(121, 122)]]%N.
Definition abnf_privateuse_subtag : re := rep 1 8 alphanum.                (* 51 *)
Definition abnf_privateuse : re := lit "x" %% plus (hyphen %% abnf_privateuse_subtag).  (* 49 *)
Definition abnf_extension_subtag : re := rep 2 8 alphanum.                 (* 37 *)
Definition abnf_extension : re := abnf_singleton %% plus (hyphen %% abnf_extension_subtag). (* 35 *)
Definition abnf_extensions : re := opt (abnf_extension %% Star (hyphen %% abnf_extension)). (* 39 *)
Definition abnf_variant : re := Alt (rep 5 8 alphanum) (DIGIT %% times 3 alphanum).  (* 30-31 *)
Definition abnf_variants : re := opt (abnf_variant %% Star (hyphen %% abnf_variant)). (* 33 *)
Definition abnf_region : re := Alt (times 2 ALPHA) (times 3 DIGIT).        (* 27-28 *)
Definition abnf_script : re := times 4 ALPHA.                              (* 25 *)
Definition abnf_extlang_tag : re := times 3 ALPHA.                         (* 23 *)
Definition abnf_extlang : re := abnf_extlang_tag %% rep 0 2 (hyphen %% abnf_extlang_tag).  (* 20-21 *)
Definition abnf_primary : re := rep 2 3 ALPHA.                             (* 18 *)
Definition abnf_language : re :=                                           (* 12-16 *)
  alts [abnf_primary %% opt (hyphen %% abnf_extlang); times 4 ALPHA; rep 5 8 ALPHA].
Definition abnf_langtag : re :=                                            (* 5-10 *)
  abnf_language %%
  opt (hyphen %% abnf_script) %%
  opt (hyphen %% abnf_region) %%
  Star (hyphen %% abnf_variant) %%
  Star (hyphen %% abnf_extension) %%
  opt (hyphen %% abnf_privateuse).

(** grammar.abnf:56-72 and 74-82. *)
Definition irregular_tags : list string :=
  ["en-GB-oed"; "i-ami"; "i-bnn"; "i-default"; "i-enochian"; "i-hak"; "i-klingon"; "i-lux"; "i-mingo";
   "i-navajo"; "i-pwn"; "i-tao"; "i-tay"; "i-tsu"; "sgn-BE-FR"; "sgn-BE-NL"; "sgn-CH-DE"]%string.
Definition regular_tags : list string :=
  ["art-lojban"; "cel-gaulish"; "no-bok"; "no-nyn"; "zh-guoyu"; "zh-hakka"; "zh-min"; "zh-min-nan";
   "zh-xiang"]%string.
Definition abnf_irregular : re := alts (map lit irregular_tags).
Definition abnf_regular : re := alts (map lit regular_tags).
Definition abnf_grandfathered : re := Alt abnf_irregular abnf_regular.     (* 53-54 *)
Definition abnf_Language_Tag : re :=                                       (* 1-3 *)
  alts [abnf_langtag; abnf_privateuse; abnf_grandfathered].

(** * 3. Direct description: lengths and character classes *)

Definition is_alpha (b : byte) : bool := is_upper b || is_lower b.
Definition is_digit (b : byte) : bool := (48 <=? code b)%N && (code b <=? 57)%N.
Definition is_alnum (b : byte) : bool := is_alpha b || is_digit b.

(** Between [lo] and [hi] bytes, all satisfying [p]. *)
Definition sized (lo hi : nat) (p : byte -> bool) (s : bytes) : bool :=
  (lo <=? length s) && (length s <=? hi) && forallb p s.

Definition primary_ok (s : bytes) : bool := sized 2 3 is_alpha s.
Definition extlang_tag_ok (s : bytes) : bool := sized 3 3 is_alpha s.
Definition script_ok (s : bytes) : bool := sized 4 4 is_alpha s.
Definition region_ok (s : bytes) : bool := sized 2 2 is_alpha s || sized 3 3 is_digit s.
Definition variant_ok (s : bytes) : bool :=
  sized 5 8 is_alnum s ||
  (sized 4 4 is_alnum s && match s with b :: _ => is_digit b | [] => false end).
Definition singleton_ok (b : byte) : bool :=
  is_alnum b && negb (beq b "x"%byte) && negb (beq b "X"%byte).
Definition ext_subtag_ok (s : bytes) : bool := sized 2 8 is_alnum s.
Definition pu_subtag_ok (s : bytes) : bool := sized 1 8 is_alnum s.

(** Subtags joined with '-'. *)
Fixpoint join (l : list bytes) : bytes :=
  match l with
  | [] => []
  | [s] => s
  | s :: l' => s ++ dash :: join l'
  end.

(** Lists of extlangs ([LanguageExtension]) and of variants ([Variants]). *)
Definition extlangs_ok (l : list bytes) : bool :=
  (1 <=? length l) && (length l <=? 3) && forallb extlang_tag_ok l.
Definition variants_ok (l : list bytes) : bool := forallb variant_ok l.

(** A language: primary subtag and extlangs. *)
Record language := Lang { l_primary : bytes; l_extlangs : list bytes }.
Definition language_ok (l : language) : bool :=
  (primary_ok (l_primary l) && (length (l_extlangs l) <=? 3) && forallb extlang_tag_ok (l_extlangs l)) ||
  (sized 4 8 is_alpha (l_primary l) && match l_extlangs l with [] => true | _ => false end).
Definition language_subtags (l : language) : list bytes := l_primary l :: l_extlangs l.
Definition language_text (l : language) : bytes := join (language_subtags l).

(** An extension: singleton and subtags. *)
Record extension := Ext { e_singleton : byte; e_subtags : list bytes }.
Definition extension_ok (e : extension) : bool :=
  singleton_ok (e_singleton e) && (1 <=? length (e_subtags e)) && forallb ext_subtag_ok (e_subtags e).
Definition extension_parts (e : extension) : list bytes := [e_singleton e] :: e_subtags e.
Definition extension_text (e : extension) : bytes := join (extension_parts e).
Definition extensions_ok (l : list extension) : bool := forallb extension_ok l.
Definition extensions_text (l : list extension) : bytes := join (flat_map extension_parts l).

(** A private use sequence: its 'x' or 'X' and its subtags. *)
Record private := Priv { p_x : byte; p_subtags : list bytes }.
Definition private_ok (p : private) : bool :=
  (beq (p_x p) "x"%byte || beq (p_x p) "X"%byte) &&
  (1 <=? length (p_subtags p)) && forallb pu_subtag_ok (p_subtags p).
Definition private_parts (p : private) : list bytes := [p_x p] :: p_subtags p.
Definition private_text (p : private) : bytes := join (private_parts p).

(** A normal language tag, by components. *)
Record tag := Tag {
  t_language : language;
  t_script : option bytes;
  t_region : option bytes;
  t_variants : list bytes;
  t_extensions : list extension;
  t_private : option private
}.

Definition opt_ok {A} (p : A -> bool) (o : option A) : bool :=
  match o with Some a => p a | None => true end.
Definition opt_list {A} (o : option A) : list A :=
  match o with Some a => [a] | None => [] end.
Definition opt_parts {A} (f : A -> list bytes) (o : option A) : list bytes :=
  match o with Some a => f a | None => [] end.

Definition tag_ok (t : tag) : bool :=
  language_ok (t_language t) && opt_ok script_ok (t_script t) && opt_ok region_ok (t_region t) &&
  variants_ok (t_variants t) && extensions_ok (t_extensions t) && opt_ok private_ok (t_private t).

Definition tag_subtags (t : tag) : list bytes :=
  language_subtags (t_language t) ++ opt_list (t_script t) ++ opt_list (t_region t) ++
  t_variants t ++ flat_map extension_parts (t_extensions t) ++ opt_parts private_parts (t_private t).

Definition tag_text (t : tag) : bytes := join (tag_subtags t).

(** [s] is the text of the well-formed tag [t]. *)
Definition is_tag (s : bytes) (t : tag) : Prop := tag_ok t = true /\ s = tag_text t.

(** [s] is the text of a well-formed [X]. *)
Definition has_text {X} (ok : X -> bool) (text : X -> bytes) (s : bytes) : Prop :=
  exists x, ok x = true /\ s = text x.
Definition is_true_of (ok : bytes -> bool) (s : bytes) : Prop := ok s = true.

(** * 4. ASCII letter case *)

Definition lower (b : byte) : byte :=
  (match b with
   | "A" => "a" | "B" => "b" | "C" => "c" | "D" => "d" | "E" => "e" | "F" => "f" | "G" => "g"
   | "H" => "h" | "I" => "i" | "J" => "j" | "K" => "k" | "L" => "l" | "M" => "m" | "N" => "n"
   | "O" => "o" | "P" => "p" | "Q" => "q" | "R" => "r" | "S" => "s" | "T" => "t" | "U" => "u"
   | "V" => "v" | "W" => "w" | "X" => "x" | "Y" => "y" | "Z" => "z"
   | _ => b
   end)%byte.

(** Equal up to ASCII letter case. *)
Definition same_ci (a b : bytes) : Prop := map lower a = map lower b.

Definition same_opt (x y : option bytes) : Prop :=
  match x, y with
  | Some a, Some b => same_ci a b
  | None, None => True
  | _, _ => False
  end.

(** One of a list of literals, in any case. *)
Definition one_of (l : list string) (s : bytes) : Prop := exists g, In g l /\ same_ci s (bs g).

(** * 5. Lexicographic order *)

Fixpoint lex (a b : bytes) : comparison :=
  match a, b with
  | [], [] => Eq
  | [], _ => Lt
  | _, [] => Gt
  | x :: a', y :: b' =>
    match (code x ?= code y)%N with
    | Eq => lex a' b'
    | c => c
    end
  end.

(** [a] is a prefix of [b]. *)
Definition prefix (a b : bytes) : Prop := exists c, b = a ++ c.

(** * 6. Iteration *)

(** What [k] calls of [next] return on an iterator over [l]: the first [k] items, then [None]. *)
Fixpoint expected_next {A} (k : nat) (l : list A) : list (option A) :=
  match k with
  | O => []
  | S k' =>
    match l with
    | [] => None :: expected_next k' []
    | x :: l' => Some x :: expected_next k' l'
    end
  end.

(** Double-ended queue: pop from the front / from the back. *)
Inductive deque_op := Front | Back.

Definition pop_front {A} (l : list A) : option A * list A :=
  match l with
  | [] => (None, [])
  | x :: l' => (Some x, l')
  end.

Fixpoint pop_back {A} (l : list A) : option A * list A :=
  match l with
  | [] => (None, [])
  | [x] => (Some x, [])
  | x :: l' => let (r, l'') := pop_back l' in (r, x :: l'')
  end.

Fixpoint deque_run {A} (ops : list deque_op) (l : list A) : list (option A) :=
  match ops with
  | [] => []
  | Front :: ops' => let (r, l') := pop_front l in r :: deque_run ops' l'
  | Back :: ops' => let (r, l') := pop_back l in r :: deque_run ops' l'
  end.

(** * 7. Where a normal tag ends *)

Definition absent {A} (o : option A) : bool := match o with None => true | Some _ => false end.
Definition empty {A} (l : list A) : bool := match l with [] => true | _ => false end.

(** No extension and no private use: the tag ends with its variants, or before. *)
Definition ends_by_variants (t : tag) : bool := empty (t_extensions t) && absent (t_private t).
(** Moreover no variant: the tag is language[-script][-region]. *)
Definition ends_by_region (t : tag) : bool := empty (t_variants t) && ends_by_variants t.
(** The tag is language[-script]. *)
Definition ends_by_script (t : tag) : bool := absent (t_region t) && ends_by_region t.
(** The tag is a language only. *)
Definition ends_by_language (t : tag) : bool := absent (t_script t) && ends_by_script t.

(** Everything from the first extension on, extensions and private use alike. *)
Definition rest_subtags (t : tag) : list bytes :=
  flat_map extension_parts (t_extensions t) ++ opt_parts private_parts (t_private t).

(** * 8. Reassembling components *)

Definition nonempty (s : bytes) : bool := match s with [] => false | _ => true end.
Definition or_empty (o : option bytes) : bytes := match o with Some s => s | None => [] end.
(** Texts joined with '-', skipping the empty ones. *)
Definition join_present (l : list bytes) : bytes := join (filter nonempty l).

(** * 9. Positions *)

(** The bytes [a..b] of [s] are whole subtags: they start at the start of [s] or after a '-', and they end
    at the end of [s] or before a '-'. *)
Definition aligned (s : bytes) (a b : nat) : Prop :=
  a < b /\ b <= length s /\
  (a = 0 \/ nth_error s (a - 1) = Some dash) /\ (b = length s \/ nth_error s b = Some dash).

(** * 10. Cutting a normal tag *)

(** Places between components where a normal tag can be cut. *)
Inductive cut := AfterLanguage | AfterScript | AfterRegion | AfterVariants (k : nat) | AfterExtensions (k : nat).

(** What is left of a tag cut there: [AfterVariants k] keeps the first [k] variants, [AfterExtensions k] the
    first [k] extensions. *)
Definition cut_at (c : cut) (t : tag) : tag :=
  let keep script region variants extensions := Tag (t_language t) script region variants extensions None in
  match c with
  | AfterLanguage => keep None None [] []
  | AfterScript => keep (t_script t) None [] []
  | AfterRegion => keep (t_script t) (t_region t) [] []
  | AfterVariants k => keep (t_script t) (t_region t) (firstn k (t_variants t)) []
  | AfterExtensions k => keep (t_script t) (t_region t) (t_variants t) (firstn k (t_extensions t))
  end.

(** RFC 4647, section 3.4 (lookup): remove the last subtag, and the single-character subtags left at the end. *)
Fixpoint drop_singles (l : list bytes) : list bytes :=
  match l with
  | x :: l' => if length x =? 1 then drop_singles l' else l
  | [] => []
  end.
Definition lookup_truncate (l : list bytes) : list bytes := rev (drop_singles (tl (rev l))).

(** * 11. More orders *)

Fixpoint lex_codes (a b : list N) : comparison :=
  match a, b with
  | [], [] => Eq
  | [], _ => Lt
  | _, [] => Gt
  | x :: a', y :: b' =>
    match (x ?= y)%N with
    | Eq => lex_codes a' b'
    | c => c
    end
  end.

(** The codes of the lowercase text, then a mark greater than every byte. *)
Definition marked (s : bytes) : list N := map code (map lower s) ++ [256%N].

(** First and last elements. *)
Definition first_of {A} (l : list A) : option A := hd_error l.
Definition last_of {A} (l : list A) : option A := hd_error (rev l).
