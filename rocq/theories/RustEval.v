(** What the part of Rust that /repo/src is written in means: an interpreter for the syntax trees of RustSyntax.v.

    Nothing here is about langtag.  References are transparent ([&e], [*e] are [e]); a [&mut] argument is passed by
    value and its final value is written back to the variable it was taken from; [usize] is [nat] up to [M], the
    parameter for [usize::MAX].  Sums and differences that leave the range of their type, an ill-typed step, a name that is
    not found and a lack of fuel all give [OutOfFuel], which no property accepts. *)
From Verif Require Import Base Validate RustSyntax.
Open Scope string_scope.
Open Scope nat_scope.
Open Scope list_scope.

(** * 1. Values *)

Inductive value :=
| VUnit
| VBool (b : bool)
| VNat (n : nat)                          (* usize *)
| VByte (b : byte)                        (* u8 *)
| VU32 (n : N)                            (* u32 *)
| VChar (c : N)
| VStr (s : bytes)
| VBytes (s : bytes)                      (* [u8] *)
| VList (l : list value)                  (* arrays *)
| VTuple (l : list value)
| VStruct (t : string) (fs : list (string * value))
| VEnum (t c : string) (l : list value)
| VClosure (env : list (string * value)) (ps : list pat) (b : expr)
| VPath (p : list string)                 (* a function, named *)
| VTy (t : string)                        (* what Self stands for *)
| VChars (s : bytes)                      (* core::str::Chars *)
| VSink (s : bytes).                      (* a Hasher or a Formatter: the bytes written to it so far *)

Definition env := list (string * value).

Definition some (v : value) : value := VEnum "Option" "Some" [v].
Definition none : value := VEnum "Option" "None" [].
Definition okv (v : value) : value := VEnum "Result" "Ok" [v].
Definition errv (v : value) : value := VEnum "Result" "Err" [v].
Definition ordering (c : comparison) : value :=
  VEnum "Ordering" (match c with Lt => "Less" | Eq => "Equal" | Gt => "Greater" end) [].
(** A value [T(v)] of a tuple struct. *)
Definition tuple1 (t : string) (v : value) : value := VStruct t [("0", v)].

Fixpoint lookup (x : string) (e : env) : option value :=
  match e with
  | (y, v) :: e' => if String.eqb x y then Some v else lookup x e'
  | [] => None
  end.
Fixpoint update (x : string) (v : value) (e : env) : env :=
  match e with
  | (y, w) :: e' => if String.eqb x y then (y, v) :: e' else (y, w) :: update x v e'
  | [] => []
  end.
(** [restore old new]: [new] without the variables declared since [old]. *)
Fixpoint minus_len {A B} (a : list A) (b : list B) : list A :=
  match a, b with _ :: a', _ :: b' => minus_len a' b' | _, _ => a end.
Fixpoint drop_len {A B} (k : list A) (l : list B) : list B :=
  match k, l with _ :: k', _ :: l' => drop_len k' l' | _, _ => l end.
Definition restore (old new : env) : env := drop_len (minus_len new old) new.

(** * 2. Programs *)

Record entry := Entry { en_type : string; en_trait : option ty; en_fn : fn }.   (* type "": a free function *)
Record program := Program {
  fns : list entry;
  consts : list (string * string * expr);                      (* type, name *)
  structs : list (string * list (list token) * list (string * ty));
  enums : list (string * list (string * nat));
  aliases : list (string * string)
}.

Definition type_name (t : ty) : string :=
  match t with TyPath p _ => last p "" | _ => "" end.

(** Type inference, where it is needed to run the program: [e.unwrap_or_default()] at the end of a function that
    returns [T] is [e.unwrap_or(T::default())]. *)
Definition infer_default (f : fn) : fn :=
  match fn_body f, fn_ret f with
  | EBlock l (Some (EMethod e "unwrap_or_default" [])), Some t =>
    Fn (fn_name f) (fn_self f) (fn_params f) (fn_ret f)
       (EBlock l (Some (EMethod e "unwrap_or" [ECall (EPath [type_name t; "default"]) []])))
  | _, _ => f
  end.

(** Name resolution, where it is needed: in an implementation of the trait [r], [e.fmt(..)] at the end of a function
    is [r::fmt]. *)
Definition infer_trait (trait : option ty) (f : fn) : fn :=
  match fn_body f, trait with
  | EBlock l (Some (EMethod e "fmt" args)), Some t =>
    Fn (fn_name f) (fn_self f) (fn_params f) (fn_ret f)
       (EBlock l (Some (EMethod e (type_name t ++ "::fmt")%string args)))
  | _, _ => f
  end.

(** [pre]: the module the types are in. *)
Definition load_impl (pre t : string) (trait : option ty) (P : program) (i : item) : program :=
  match i with
  | IFn f => Program (Entry (pre ++ t)%string trait (infer_trait trait (infer_default f)) :: fns P) (consts P) (structs P) (enums P) (aliases P)
  | IConst x _ e => Program (fns P) ((pre ++ t, x, e)%string :: consts P) (structs P) (enums P) (aliases P)
  | _ => P
  end.
Definition load_item (pre : string) (P : program) (i : item) : program :=
  match i with
  | IFn f => Program (Entry "" None f :: fns P) (consts P) (structs P) (enums P) (aliases P)
  | IConst x _ e => Program (fns P) (("", x, e) :: consts P) (structs P) (enums P) (aliases P)
  | IImpl trait t l => fold_left (load_impl pre (type_name t) trait) l P
  | IStruct attrs x fs => Program (fns P) (consts P) (((pre ++ x)%string, attrs, fs) :: structs P) (enums P) (aliases P)
  | IEnum _ x vs => Program (fns P) (consts P) (structs P) ((x, vs) :: enums P) (aliases P)
  | IType x t => Program (fns P) (consts P) (structs P) (enums P) ((x, type_name t) :: aliases P)
  | ISkip => P
  end.

Fixpoint find_fn (l : list entry) (t m : string) : option fn :=
  match l with
  | e :: l' => if String.eqb (en_type e) t && String.eqb (fn_name (en_fn e)) m then Some (en_fn e) else find_fn l' t m
  | [] => None
  end.
(** The trait [r], or [r<x>] if [x] is not empty. *)
Definition is_trait (t : option ty) (r x : string) : bool :=
  match t with
  | Some (TyPath p []) => String.eqb (last p "") r && String.eqb x ""
  | Some (TyPath p [TyPath [y] []]) => String.eqb (last p "") r && String.eqb x y
  | _ => false
  end.
(** [<t as r<x>>::m]. *)
Fixpoint find_qualified (l : list entry) (t r x m : string) : option fn :=
  match l with
  | e :: l' =>
    if String.eqb (en_type e) t && is_trait (en_trait e) r x && String.eqb (fn_name (en_fn e)) m then Some (en_fn e)
    else find_qualified l' t r x m
  | [] => None
  end.
(** The type that implements [TryFrom<x>]. *)
Fixpoint find_try_from (l : list entry) (x : string) : option string :=
  match l with
  | e :: l' => if is_trait (en_trait e) "TryFrom" x then Some (en_type e) else find_try_from l' x
  | [] => None
  end.
Fixpoint find_const (l : list (string * string * expr)) (t x : string) : option expr :=
  match l with
  | (u, y, e) :: l' => if String.eqb t u && String.eqb x y then Some e else find_const l' t x
  | [] => None
  end.
Fixpoint find_struct (l : list (string * list (list token) * list (string * ty))) (t : string)
  : option (list (list token) * list (string * ty)) :=
  match l with
  | (u, a, fs) :: l' => if String.eqb t u then Some (a, fs) else find_struct l' t
  | [] => None
  end.
Fixpoint find_variant (l : list (string * nat)) (c : string) : option nat :=
  match l with
  | (d, k) :: l' => if String.eqb c d then Some k else find_variant l' c
  | [] => None
  end.
Fixpoint find_enum (l : list (string * list (string * nat))) (t : string) : option (list (string * nat)) :=
  match l with
  | (u, vs) :: l' => if String.eqb t u then Some vs else find_enum l' t
  | [] => None
  end.
(** A variant brought into scope by [use T::*]. *)
Fixpoint find_any_variant (l : list (string * list (string * nat))) (c : string) : option (string * nat) :=
  match l with
  | (t, vs) :: l' => match find_variant vs c with Some k => Some (t, k) | None => find_any_variant l' c end
  | [] => None
  end.
Fixpoint unalias (l : list (string * string)) (t : string) : string :=
  match l with
  | (x, u) :: l' => if String.eqb x t then u else unalias l' t
  | [] => t
  end.
(** The attribute [#[automaton(crate::grammar::A)]]. *)
Fixpoint automaton_attr (attrs : list (list token)) : option string :=
  match attrs with
  | [TId "automaton"; TP "("; TId "crate"; TP "::"; TId "grammar"; TP "::"; TId a; TP ")"] :: _ => Some a
  | _ :: l => automaton_attr l
  | [] => None
  end.
(** The attribute [#[derive(.., x, ..)]]. *)
Definition derives (x : string) (attrs : list (list token)) : bool :=
  existsb (fun a => match a with
                    | TId "derive" :: a' => existsb (fun t => match t with TId y => String.eqb x y | _ => false end) a'
                    | _ => false
                    end) attrs.
(** [Default::default()], derived. *)
Definition default_of (t : ty) : value :=
  match t with
  | TyRef false (TyPath ["str"] []) => VStr []
  | TyPath ["usize"] [] => VNat 0
  | _ => VUnit
  end.

(** What a path stands for. *)
Inductive target :=
| TgFn (t : string) (f : fn)               (* a function of the program; its type *)
| TgVariant (t c : string) (arity : nat)
| TgStruct (t : string)                    (* the constructor of a tuple struct *)
| TgNew (t a : string)                     (* generated by str_newtype: [T::new], over the automaton [a] *)
| TgNewUnchecked (t : string)              (* generated by str_newtype *)
| TgDefault (t : string) (fs : list (string * ty))
| TgConst (t : string) (e : expr)
| TgVal (v : value)
| TgDecode                                 (* static_automata::decode_utf8_char *)
| TgFromUtf8                               (* core::str::from_utf8_unchecked *)
| TgNone.

Definition resolve1 (P : program) (x : string) : target :=
  match x with
  | "Some" => TgVariant "Option" "Some" 1
  | "None" => TgVariant "Option" "None" 0
  | "Ok" => TgVariant "Result" "Ok" 1
  | "Err" => TgVariant "Result" "Err" 1
  | "decode_utf8_char" => TgDecode
  | "from_utf8_unchecked" => TgFromUtf8
  | _ =>
    match find_fn (fns P) "" x with
    | Some f => TgFn "" f
    | None =>
      match find_struct (structs P) x with
      | Some _ => TgStruct x
      | None =>
        match find_const (consts P) "" x with
        | Some e => TgConst "" e
        | None => match find_any_variant (enums P) x with Some (t, k) => TgVariant t x k | None => TgNone end
        end
      end
    end
  end.
Definition resolve2 (P : program) (t x : string) : target :=
  match find_fn (fns P) t x with
  | Some f => TgFn t f
  | None =>
    match find_enum (enums P) t with
    | Some vs => match find_variant vs x with Some k => TgVariant t x k | None => TgNone end
    | None =>
      match find_const (consts P) t x with
      | Some e => TgConst t e
      | None =>
        match find_struct (structs P) t with
        | Some (attrs, fs) =>
          match x, automaton_attr attrs with
          | "new", Some a => TgNew t a
          | "new_unchecked", Some _ => TgNewUnchecked t
          | "default", _ => if derives "Default" attrs then TgDefault t fs else TgNone
          | _, _ => TgNone
          end
        | None =>
          match t, x with
          | "Ordering", _ => TgVariant t x 0
          | "u8", "MAX" => TgVal (VByte xff)
          | _, _ => resolve1 P x        (* t is a module *)
          end
        end
      end
    end
  end.
(** [[t; "as"; r; x; m]] is [<t as r<x>>::m]. *)
Definition resolve (P : program) (p : list string) : target :=
  match p with
  | [t; "as"; r; x; m] => match find_qualified (fns P) t r x m with Some f => TgFn t f | None => TgNone end
  | _ =>
    match rev p with
    | x :: t :: _ => resolve2 P (unalias (aliases P) t) x
    | [x] => resolve1 P x
    | [] => TgNone
    end
  end.
(** [Self] is replaced by the type it stands for. *)
Definition self_path (e : env) (p : list string) : list string :=
  match p with
  | "Self" :: r => match lookup "Self" e with Some (VTy t) => t :: r | _ => p end
  | _ => p
  end.

(** Which arguments (the receiver first) are passed by [&mut]. *)
Definition fn_muts (f : fn) : list bool :=
  match fn_self f with NoSelf => [] | ByMut => [true] | _ => [false] end ++
  map (fun p => match snd p with TyRef true _ => true | _ => false end) (fn_params f).
Definition muts (P : program) (f : value) : list bool :=
  match f with
  | VPath p => match resolve P p with TgFn _ g => fn_muts g | _ => [] end
  | _ => []
  end.

(** The function that a method call [v.m(..)] runs, if it is one of the program.  [try_into] of a [char] is the only
    implementation of [TryFrom<char>]. *)
Definition method_path (P : program) (v : value) (m : string) : option (list string) :=
  match v with
  | VStruct t _ | VEnum t _ _ => match find_fn (fns P) t m with Some _ => Some [t; m] | None => None end
  | VChar _ =>
    if String.eqb m "try_into" then
      match find_try_from (fns P) "char" with Some t => Some [t; "as"; "TryFrom"; "char"; "try_from"] | None => None end
    else None
  | _ => None
  end.

(** * 3. Patterns *)

Fixpoint match_pat (p : pat) (v : value) : option env :=
  let all := fix all (ps : list pat) (vs : list value) : option env :=
    match ps, vs with
    | p :: ps', v :: vs' =>
      match match_pat p v with
      | Some b => match all ps' vs' with Some b' => Some (b ++ b') | None => None end
      | None => None
      end
    | [], [] => Some []
    | _, _ => None
    end in
  let first := fix first (ps : list pat) : option env :=
    match ps with
    | p :: ps' => match match_pat p v with Some b => Some b | None => first ps' end
    | [] => None
    end in
  match p with
  | PWild => Some []
  | PVar x => Some [(x, v)]
  | PInt n => match v with VU32 k => if (k =? n)%N then Some [] else None | _ => None end
  | PChar lo hi => match v with VChar c => if (lo <=? c)%N && (c <=? hi)%N then Some [] else None | _ => None end
  | PTuple ps => match v with VTuple vs => all ps vs | _ => None end
  | PCtor q ps => match v with VEnum _ c vs => if String.eqb (last q "") c then all ps vs else None | _ => None end
  | POr ps => first ps
  end.
Fixpoint bind_pats (ps : list pat) (vs : list value) : option env :=
  match ps, vs with
  | p :: ps', v :: vs' =>
    match match_pat p v, bind_pats ps' vs' with Some b, Some b' => Some (b ++ b') | _, _ => None end
  | [], [] => Some []
  | _, _ => None
  end.

(** * 4. Operators and library functions *)

Definition u8_of (n : N) : option byte := Strings.Byte.of_N n.

(** A [usize], unless it is above [usize::MAX], here [M]: a sum that overflows, which panics or wraps as the crate is
    built, is given no result. *)
Definition fit (M n : nat) : outcome value := if n <=? M then Ret (VNat n) else OutOfFuel.

Definition binary (M : nat) (o : binop) (a b : value) : outcome value :=
  match o, a, b with
  | BEq, VNat x, VNat y => Ret (VBool (x =? y))
  | BNe, VNat x, VNat y => Ret (VBool (negb (x =? y)))
  | BLt, VNat x, VNat y => Ret (VBool (x <? y))
  | BGt, VNat x, VNat y => Ret (VBool (y <? x))
  | BLe, VNat x, VNat y => Ret (VBool (x <=? y))
  | BGe, VNat x, VNat y => Ret (VBool (y <=? x))
  | BAdd, VNat x, VNat y => fit M (x + y)
  | BSub, VNat x, VNat y => if y <=? x then Ret (VNat (x - y)) else OutOfFuel
  | BEq, VByte x, VByte y => Ret (VBool (beq x y))
  | BNe, VByte x, VByte y => Ret (VBool (negb (beq x y)))
  | BAdd, VByte x, VNat y =>                  (* a literal, typed u8 *)
    match u8_of (code x + N.of_nat y) with Some z => Ret (VByte z) | None => OutOfFuel end
  | BSub, VByte x, VNat y =>
    if (N.of_nat y <=? code x)%N then match u8_of (code x - N.of_nat y) with Some z => Ret (VByte z) | None => OutOfFuel end
    else OutOfFuel
  | BEq, VU32 x, VU32 y => Ret (VBool (x =? y)%N)
  | BNe, VU32 x, VU32 y => Ret (VBool (negb (x =? y)%N))
  | BLt, VU32 x, VU32 y => Ret (VBool (x <? y)%N)
  | BGt, VU32 x, VU32 y => Ret (VBool (y <? x)%N)
  | BLe, VU32 x, VU32 y => Ret (VBool (x <=? y)%N)
  | BGe, VU32 x, VU32 y => Ret (VBool (y <=? x)%N)
  | _, _, _ => OutOfFuel
  end.

(** [e as t]. *)
Definition cast (v : value) (t : ty) : outcome value :=
  match v, t with
  | VChar c, TyPath ["u32"] [] => Ret (VU32 c)
  | VByte b, TyPath ["u32"] [] => Ret (VU32 (code b))
  | VByte b, TyPath ["char"] [] => Ret (VChar (code b))
  | VU32 n, TyPath ["u8"] [] => match u8_of (n mod 256) with Some b => Ret (VByte b) | None => OutOfFuel end
  | _, _ => OutOfFuel
  end.

Definition range (a b : nat) : value := VStruct "Range" [("start", VNat a); ("end", VNat b)].
Definition make_range (a b : option value) : value :=
  match a, b with
  | Some x, Some y => VStruct "Range" [("start", x); ("end", y)]
  | Some x, None => VStruct "RangeFrom" [("start", x)]
  | None, Some y => VStruct "RangeTo" [("end", y)]
  | None, None => VStruct "RangeFull" []
  end.

(** [v[i]]. *)
Definition index_value (v i : value) : outcome value :=
  match v, i with
  | VBytes s, VNat i => let! b := index s i in Ret (VByte b)
  | VStr s, VStruct "Range" [(_, VNat a); (_, VNat b)] => let! x := slice s a b in Ret (VStr x)
  | VStr s, VStruct "RangeFrom" [(_, VNat a)] => let! x := slice_from s a in Ret (VStr x)
  | VStr s, VStruct "RangeTo" [(_, VNat b)] => let! x := slice_to s b in Ret (VStr x)
  | _, _ => OutOfFuel
  end.

(** [v.f]. *)
Definition field (v : value) (f : string) : outcome value :=
  match v with
  | VStruct _ fs => match lookup f fs with Some w => Ret w | None => OutOfFuel end
  | _ => OutOfFuel
  end.

(** What [for] runs over. *)
Definition items (v : value) : option (list value) :=
  match v with
  | VStruct "Range" [(_, VNat a); (_, VNat b)] => Some (map VNat (seq a (b - a)))
  | VBytes s => Some (map VByte s)
  | VList l => Some l
  | _ => None
  end.

(** [str::split_once], for an ASCII character. *)
Fixpoint split_at (c : byte) (s : bytes) : option (bytes * bytes) :=
  match s with
  | [] => None
  | b :: r => if beq b c then Some ([], r)
              else match split_at c r with Some (x, y) => Some (b :: x, y) | None => None end
  end.
(** The UTF-8 encoding of a character below 0x100. *)
Definition encode_latin1 (c : N) : option bytes :=
  if (c <? 128)%N then match u8_of c with Some b => Some [b] | None => None end
  else match u8_of (192 + c / 64), u8_of (128 + c mod 64) with Some a, Some b => Some [a; b] | _, _ => None end.

(** Methods of the standard library and those generated by str_newtype, on values that are not functions; the result
    and the final values of the [&mut] arguments (of [hash] and [fmt]). *)
Definition method0 (v : value) (m : string) (args : list value) : outcome (value * list value) :=
  match v, m, args with
  | VStr s, "len", [] => Ret (VNat (length s), [])
  | VBytes s, "len", [] => Ret (VNat (length s), [])
  | VStr s, "as_bytes", [] => Ret (VBytes s, [])
  | VStruct _ [("0", VStr s)], "as_bytes", [] => Ret (VBytes s, [])            (* generated *)
  | VStr s, "as_ref", [] => Ret (VBytes s, [])                                 (* AsRef<[u8]> *)
  | VBytes s, "as_ref", [] => Ret (VBytes s, [])
  | VStr s, "to_owned", [] => Ret (VStr s, [])
  | VStr s, "chars", [] => Ret (VChars s, [])
  | VChars s, "next", [] =>
    match s with
    | [] => Ret (none, [])
    | _ => match decode_utf8_char s 0 with Some (c, _) => Ret (some (VChar c), []) | None => Panic end
    end
  | VStr s, "split_once", [VChar c] =>
    match u8_of c with
    | Some b => match split_at b s with
                | Some (x, y) => Ret (some (VTuple [VStr x; VStr y]), [])
                | None => Ret (none, [])
                end
    | None => OutOfFuel
    end
  | VByte b, "is_ascii_uppercase", [] => Ret (VBool (is_ascii_uppercase b), [])
  | VByte b, "is_ascii_alphanumeric", [] => Ret (VBool (is_ascii_alphanumeric b), [])
  | VByte a, "cmp", [VByte b] => Ret (ordering (byte_cmp a b), [])
  | VByte b, "hash", [VSink l] => Ret (VUnit, [VSink (l ++ [b])])             (* one call of Hasher::write_u8 *)
  (* with the default format specification *)
  | VStr s, "Display::fmt", [VSink l] => Ret (okv VUnit, [VSink (l ++ s)])
  | VChar c, "Display::fmt", [VSink l] =>
    match encode_latin1 c with Some s => Ret (okv VUnit, [VSink (l ++ s)]) | None => OutOfFuel end
  | VChar c, "Debug::fmt", [VSink l] =>       (* other characters may be escaped *)
    match u8_of c with
    | Some b => if is_ascii_alphanumeric b then Ret (okv VUnit, [VSink (l ++ [x27; b; x27])]) else OutOfFuel
    | None => OutOfFuel
    end
  | VEnum "Result" "Ok" [x], "ok", [] => Ret (some x, [])
  | VEnum "Result" "Err" [_], "ok", [] => Ret (none, [])
  | VEnum "Result" "Ok" [_], "is_ok", [] => Ret (VBool true, [])
  | VEnum "Result" "Err" [_], "is_ok", [] => Ret (VBool false, [])
  | VEnum "Result" "Ok" [x], "unwrap", [] => Ret (x, [])
  | VEnum "Result" "Err" [_], "unwrap", [] => Panic
  | VEnum "Option" "Some" [_], "is_some", [] => Ret (VBool true, [])
  | VEnum "Option" "None" [], "is_some", [] => Ret (VBool false, [])
  | VEnum "Option" "Some" [x], "unwrap", [] => Ret (x, [])
  | VEnum "Option" "None" [], "unwrap", [] => Panic
  | VEnum "Option" "Some" [x], "unwrap_or", [_] => Ret (x, [])
  | VEnum "Option" "None" [], "unwrap_or", [d] => Ret (d, [])
  | _, _, _ => OutOfFuel
  end.
(** Those that take a function. *)
Definition method1 (call : value -> list value -> outcome (value * list value)) (v : value) (m : string)
  (args : list value) : outcome (value * list value) :=
  match v, m, args with
  | VEnum "Option" "Some" [x], "map", [f] => let! r := call f [x] in Ret (some (fst r), [])
  | VEnum "Option" "None" [], "map", [_] => Ret (none, [])
  | VEnum "Option" "Some" [x], "and_then", [f] => let! r := call f [x] in Ret (fst r, [])
  | VEnum "Option" "None" [], "and_then", [_] => Ret (none, [])
  | VEnum "Result" "Ok" [x], "map_err", [_] => Ret (okv x, [])
  | VEnum "Result" "Err" [x], "map_err", [f] => let! r := call f [x] in Ret (errv (fst r), [])
  | _, _, _ => method0 v m args
  end.
(** Which arguments (the receiver first) these take by [&mut]. *)
Definition method_muts (m : string) : list bool :=
  if String.eqb m "hash" || String.eqb m "Display::fmt" || String.eqb m "Debug::fmt" then [false; true] else [].

(** * 5. Expressions *)

(** How an expression ends. *)
Inductive flow :=
| Done (v : value)
| Returned (v : value)                     (* return v *)
| Broke (v : value).                       (* break v *)
Definition res := outcome (env * flow).

Definition done (e : env) (v : value) : res := Ret (e, Done v).
Definition andthen (r : res) (k : env -> value -> res) : res :=
  let! x := r in
  match snd x with Done v => k (fst x) v | _ => Ret x end.
(** A value computed without effect on the variables. *)
Definition pure (e : env) (r : outcome value) : res := let! v := r in done e v.
(** A block: its variables go. *)
Definition scoped (e : env) (r : res) : res := let! x := r in Ret (restore e (fst x), snd x).
(** A loop: [break v] ends it with [v]. *)
Definition looping (r : res) (k : env -> res) : res :=
  let! x := r in
  match snd x with
  | Done _ => k (fst x)
  | Broke v => done (fst x) v
  | Returned _ => Ret x
  end.

Definition evaluator := env -> expr -> res.
Definition caller := value -> list value -> outcome (value * list value).

Fixpoint eval_args (ev : evaluator) (e : env) (es : list expr) (k : env -> list value -> res) : res :=
  match es with
  | [] => k e []
  | x :: es' => andthen (ev e x) (fun e v => eval_args ev e es' (fun e vs => k e (v :: vs)))
  end.
Fixpoint eval_fields (ev : evaluator) (e : env) (fs : list (string * expr)) (k : env -> list (string * value) -> res)
  : res :=
  match fs with
  | [] => k e []
  | (f, x) :: fs' => andthen (ev e x) (fun e v => eval_fields ev e fs' (fun e vs => k e ((f, v) :: vs)))
  end.
Fixpoint eval_arms (ev : evaluator) (e : env) (v : value) (arms : list (pat * expr)) : res :=
  match arms with
  | (p, x) :: arms' =>
    match match_pat p v with
    | Some b => scoped e (ev (b ++ e) x)
    | None => eval_arms ev e v arms'
    end
  | [] => OutOfFuel
  end.
Fixpoint eval_for (ev : evaluator) (e : env) (p : pat) (b : expr) (l : list value) : res :=
  match l with
  | v :: l' =>
    match match_pat p v with
    | Some d => looping (scoped e (ev (d ++ e) b)) (fun e => eval_for ev e p b l')
    | None => OutOfFuel
    end
  | [] => done e VUnit
  end.
Fixpoint eval_stmts (ev : evaluator) (e : env) (l : list stmt) (t : option expr) : res :=
  match l with
  | SLet p x :: l' =>
    andthen (ev e x) (fun e v =>
      match match_pat p v with Some b => eval_stmts ev (b ++ e) l' t | None => OutOfFuel end)
  | SExpr x :: l' => andthen (ev e x) (fun e _ => eval_stmts ev e l' t)
  | [] => match t with Some x => ev e x | None => done e VUnit end
  end.

(** Writes the final values of the [&mut] arguments back; [ms] says which of [xs] these are. *)
Fixpoint write_back (e : env) (xs : list expr) (ms : list bool) (vs : list value) : env :=
  match xs, ms with
  | x :: xs', true :: ms' =>
    match vs with
    | v :: vs' => write_back (match x with EPath [y] => update y v e | _ => e end) xs' ms' vs'
    | [] => e
    end
  | _ :: xs', false :: ms' => write_back e xs' ms' vs
  | _, _ => e
  end.
(** The values of the [&mut] parameters, among all. *)
Fixpoint keep (ms : list bool) (vs : list value) : list value :=
  match ms with
  | true :: ms' => match vs with v :: vs' => v :: keep ms' vs' | [] => [] end
  | false :: ms' => keep ms' (tl vs)
  | [] => []
  end.

(** A place: a variable or a field of one. *)
Definition assign (e : env) (l : expr) (v : value) : option env :=
  match l with
  | EPath [x] => match lookup x e with Some _ => Some (update x v e) | None => None end
  | EField (EPath [x]) f =>
    match lookup x e with
    | Some (VStruct t fs) => Some (update x (VStruct t (update f v fs)) e)
    | _ => None
    end
  | _ => None
  end.

Definition eval_path (P : program) (ev : evaluator) (e : env) (p : list string) : res :=
  match (match p with [x] => lookup x e | _ => None end) with
  | Some v => done e v
  | None =>
    match resolve P (self_path e p) with
    | TgVariant t c 0 => done e (VEnum t c [])
    | TgConst t x => let! r := ev [("Self", VTy t)] x in match snd r with Done v => done e v | _ => OutOfFuel end
    | TgVal v => done e v
    | TgFn t f => done e (VPath (if String.eqb t "" then [fn_name f] else [t; fn_name f]))
    | TgNone => OutOfFuel
    | _ => done e (VPath (self_path e p))
    end
  end.

Definition eval_step (M : nat) (P : program) (ev : evaluator) (call : caller) (e : env) (x : expr) : res :=
  match x with
  | EInt n suffix => done e (if String.eqb suffix "u32" then VU32 n else VNat (N.to_nat n))
  | EByte b => done e (VByte b)
  | EChar c => done e (VChar c)
  | EStr s => done e (VStr s)
  | EBytes s => done e (VBytes s)
  | EBool b => done e (VBool b)
  | EPath p => eval_path P ev e p
  | EField a f => andthen (ev e a) (fun e v => pure e (field v f))
  | EIndex a i => andthen (ev e a) (fun e v => andthen (ev e i) (fun e w => pure e (index_value v w)))
  | ERange a b =>
    match a, b with
    | Some a, Some b => andthen (ev e a) (fun e v => andthen (ev e b) (fun e w => done e (make_range (Some v) (Some w))))
    | Some a, None => andthen (ev e a) (fun e v => done e (make_range (Some v) None))
    | None, Some b => andthen (ev e b) (fun e w => done e (make_range None (Some w)))
    | None, None => done e (make_range None None)
    end
  | ECall f args =>
    andthen (ev e f) (fun e v =>
      eval_args ev e args (fun e vs =>
        let! r := call v vs in done (write_back e args (muts P v) (snd r)) (fst r)))
  | EMethod a m args =>
    andthen (ev e a) (fun e v =>
      eval_args ev e args (fun e vs =>
        match method_path P v m with
        | Some p =>
          let! r := call (VPath p) (v :: vs) in done (write_back e (a :: args) (muts P (VPath p)) (snd r)) (fst r)
        | None =>
          let! r := method1 call v m vs in done (write_back e (a :: args) (method_muts m) (snd r)) (fst r)
        end))
  | EUn UNot a => andthen (ev e a) (fun e v => match v with VBool b => done e (VBool (negb b)) | _ => OutOfFuel end)
  | EUn _ a => ev e a
  | EBin BAnd a b =>
    andthen (ev e a) (fun e v => match v with VBool x => if x then ev e b else done e (VBool false) | _ => OutOfFuel end)
  | EBin BOr a b =>
    andthen (ev e a) (fun e v => match v with VBool x => if x then done e (VBool true) else ev e b | _ => OutOfFuel end)
  | EBin o a b => andthen (ev e a) (fun e v => andthen (ev e b) (fun e w => pure e (binary M o v w)))
  | ECast a t => andthen (ev e a) (fun e v => pure e (cast v t))
  | EAssign None l r =>
    andthen (ev e r) (fun e v => match assign e l v with Some e' => done e' VUnit | None => OutOfFuel end)
  | EAssign (Some o) l r =>
    andthen (ev e r) (fun e w =>
      andthen (ev e l) (fun e v =>
        let! x := binary M o v w in match assign e l x with Some e' => done e' VUnit | None => OutOfFuel end))
  | EIf c t f =>
    andthen (ev e c) (fun e v =>
      match v with
      | VBool b => if b then ev e t else match f with Some f => ev e f | None => done e VUnit end
      | _ => OutOfFuel
      end)
  | EMatch a arms => andthen (ev e a) (fun e v => eval_arms ev e v arms)
  | EMatches a p =>
    andthen (ev e a) (fun e v => done e (VBool (match match_pat p v with Some _ => true | None => false end)))
  | EWhile c b =>
    andthen (ev e c) (fun e v =>
      match v with
      | VBool true => looping (ev e b) (fun e => ev e (EWhile c b))
      | VBool false => done e VUnit
      | _ => OutOfFuel
      end)
  | ELoop b => looping (ev e b) (fun e => ev e (ELoop b))
  | EFor p a b =>
    andthen (ev e a) (fun e v => match items v with Some l => eval_for ev e p b l | None => OutOfFuel end)
  | EBreak a =>
    match a with
    | Some a => andthen (ev e a) (fun e v => Ret (e, Broke v))
    | None => Ret (e, Broke VUnit)
    end
  | EReturn a =>
    match a with
    | Some a => andthen (ev e a) (fun e v => Ret (e, Returned v))
    | None => Ret (e, Returned VUnit)
    end
  | EBlock l t => scoped e (eval_stmts ev e l t)
  | EClosure ps b => done e (VClosure e ps b)
  | EStruct p fs =>
    eval_fields ev e fs (fun e l => done e (VStruct (last (self_path e p) "") l))
  | ETuple l => match l with [] => done e VUnit | _ => eval_args ev e l (fun e vs => done e (VTuple vs)) end
  | EArray l => eval_args ev e l (fun e vs => done e (VList vs))
  end.

(** The parameters of a function, [self] first. *)
Definition param_names (f : fn) : list string :=
  match fn_self f with NoSelf => [] | _ => ["self"] end ++ map fst (fn_params f).
Fixpoint bind_params (xs : list string) (vs : list value) : option env :=
  match xs, vs with
  | x :: xs', v :: vs' => match bind_params xs' vs' with Some e => Some ((x, v) :: e) | None => None end
  | [], [] => Some [("Self", VUnit)]
  | _, _ => None
  end.
Definition run_fn (ev : evaluator) (t : string) (f : fn) (args : list value) : outcome (value * list value) :=
  match bind_params (param_names f) args with
  | Some e =>
    let! r := ev (update "Self" (VTy t) e) (fn_body f) in
    match snd r with
    | Done v | Returned v => Ret (v, keep (fn_muts f) (map snd (fst r)))
    | Broke _ => OutOfFuel
    end
  | None => OutOfFuel
  end.

Definition call_step (P : program) (ev : evaluator) (call : caller) (f : value) (args : list value)
  : outcome (value * list value) :=
  match f with
  | VClosure e ps b =>
    match bind_pats ps args with
    | Some d =>
      let! r := ev (d ++ e) b in
      match snd r with Done v | Returned v => Ret (v, []) | Broke _ => OutOfFuel end
    | None => OutOfFuel
    end
  | VPath p =>
    match resolve P p, args with
    | TgFn t g, _ => run_fn ev t g args
    | TgVariant t c (S _), _ => Ret (VEnum t c args, [])
    | TgStruct t, [v] => Ret (tuple1 t v, [])
    | TgNewUnchecked t, [VStr s] => Ret (tuple1 t (VStr s), [])
    | TgNew t a, [v] =>
      match v with
      | VStr s | VBytes s =>
        let! r := call (VPath [("grammar::" ++ a)%string; "validate_bytes"]) [VBytes s] in
        match fst r with
        | VBool b => Ret (if b then okv (tuple1 t (VStr s)) else errv (tuple1 ("Invalid" ++ t)%string v), [])
        | _ => OutOfFuel
        end
      | _ => OutOfFuel
      end
    | TgDefault t fs, [] => Ret (VStruct t (map (fun f => (fst f, default_of (snd f))) fs), [])
    | TgDecode, [VBytes s; VNat i] =>
      Ret (match decode_utf8_char s i with
           | Some (c, n) => okv (VTuple [VChar c; VNat n])
           | None => errv VUnit
           end, [])
    | TgFromUtf8, [VBytes s] => Ret (VStr s, [])
    | _, _ => OutOfFuel
    end
  | VTy t => match args with [v] => Ret (tuple1 t v, []) | _ => OutOfFuel end      (* Self(v) *)
  | _ => OutOfFuel
  end.

(** On a machine whose [usize::MAX] is [M]. *)
Fixpoint eval (M : nat) (P : program) (n : nat) (e : env) (x : expr) {struct n} : res :=
  match n with
  | O => OutOfFuel
  | S n => eval_step M P (eval M P n) (call M P n) e x
  end
with call (M : nat) (P : program) (n : nat) (f : value) (args : list value) {struct n} : outcome (value * list value) :=
  match n with
  | O => OutOfFuel
  | S n => call_step P (eval M P n) (call M P n) f args
  end.
