(** A reader for the part of Rust that /repo/src is written in: tokens, syntax trees, and a parser.  It follows the
    Rust reference; what the sources do not use (escapes in literals, nested comments, turbofish, ...) is not read, and
    the reader answers [None] on it. *)
From Verif Require Import Base.

(** * 1. Tokens *)

Inductive token :=
| TId (x : string)          (* identifiers and keywords *)
| TLife (x : string)        (* 'a *)
| TInt (n : N) (suffix : string)   (* 12, 0x20, 0u32 *)
| TByte (b : byte)          (* b'-' *)
| TChar (c : N)             (* '-' *)
| TStr (s : bytes)          (* "..." *)
| TBytes (s : bytes)        (* b"..." *)
| TP (x : string).          (* punctuation *)

Definition in_range (lo hi b : byte) : bool := (code lo <=? code b)%N && (code b <=? code hi)%N.
Definition is_space (b : byte) : bool := beq b " " || beq b "009" || beq b "010" || beq b "013".
Definition is_dec (b : byte) : bool := in_range "0" "9" b.
Definition is_id_start (b : byte) : bool := in_range "a" "z" b || in_range "A" "Z" b || beq b "_".
Definition is_id (b : byte) : bool := is_id_start b || is_dec b.

Fixpoint span (p : byte -> bool) (s : bytes) : bytes * bytes :=
  match s with
  | b :: r => if p b then let (x, y) := span p r in (b :: x, y) else ([], s)
  | [] => ([], [])
  end.

Definition hex_digit (b : byte) : option N :=
  if is_dec b then Some (code b - 48)%N
  else if in_range "a" "f" b then Some (code b - 87)%N
  else if in_range "A" "F" b then Some (code b - 55)%N
  else None.
(** The value of the digits, and the suffix. *)
Fixpoint digits (base : N) (acc : N) (s : bytes) : N * bytes :=
  match s with
  | b :: r =>
    match hex_digit b with
    | Some d => if (d <? base)%N then digits base (acc * base + d) r else (acc, s)
    | None => (acc, s)
    end
  | [] => (acc, s)
  end.
Definition number (s : bytes) : N * bytes :=
  match s with
  | "0" :: "x" :: r => digits 16 0 r
  | _ => digits 10 0 s
  end%byte.

(** Punctuation, the longest first. *)
Definition puncts : list string :=
  ["..="; "::"; "->"; "=>"; "=="; "!="; "<="; ">="; "&&"; "||"; "+="; "-="; "..";
   "("; ")"; "["; "]"; "{"; "}"; "<"; ">"; "="; "!"; "&"; "|"; "*"; "+"; "-"; "."; ","; ";"; ":"; "#"; "?"; "$"]%string.
Fixpoint strip (p s : bytes) : option bytes :=
  match p, s with
  | [], _ => Some s
  | a :: p', b :: s' => if beq a b then strip p' s' else None
  | _, [] => None
  end.
Fixpoint punct (l : list string) (s : bytes) : option (string * bytes) :=
  match l with
  | x :: l' => match strip (bs x) s with Some r => Some (x, r) | None => punct l' s end
  | [] => None
  end.

Definition str (s : bytes) : string := string_of_list_byte s.

(** No escapes in literals. *)
Definition plain (s : bytes) : bool := forallb (fun b => negb (beq b "\") && (code b <? 128)%N) s.

Fixpoint lex (n : nat) (s : bytes) : option (list token) :=
  match n with
  | O => None
  | S n =>
    let cons (t : token) (r : bytes) := match lex n r with Some ts => Some (t :: ts) | None => None end in
    match s with
    | [] => Some []
    | b :: r =>
      if is_space b then lex n r
      else match s with
      | "/" :: "/" :: _ => lex n (snd (span (fun b => negb (beq b "010")) s))
      | "b" :: "'" :: c :: "'" :: r => if plain [c] then cons (TByte c) r else None
      | "b" :: """" :: r =>
        match span (fun b => negb (beq b """")) r with
        | (x, """" :: r') => if plain x then cons (TBytes x) r' else None
        | _ => None
        end
      | """" :: r =>
        match span (fun b => negb (beq b """")) r with
        | (x, """" :: r') => if plain x then cons (TStr x) r' else None
        | _ => None
        end
      | "'" :: c :: "'" :: r => if plain [c] then cons (TChar (code c)) r else None
      | "'" :: r => let (x, r') := span is_id r in cons (TLife (str x)) r'
      | _ =>
        if is_dec b then let (x, r') := span is_id s in let (k, y) := number x in cons (TInt k (str y)) r'
        else if is_id_start b then let (x, r') := span is_id s in cons (TId (str x)) r'
        else match punct puncts s with Some (p, r') => cons (TP p) r' | None => None end
      end%byte
    end
  end.
Definition tokens (s : bytes) : option (list token) := lex (S (length s)) s.

(** * 2. Syntax trees *)

(** Types; lifetimes are dropped. *)
Inductive ty :=
| TyPath (p : list string) (args : list ty)
| TyRef (mut : bool) (t : ty)
| TySlice (t : ty)                            (* also arrays *)
| TyTuple (l : list ty)
| TyFn (bound : list string) (args : list ty).   (* impl FnMut(..) -> .. *)

Inductive pat :=
| PWild
| PVar (x : string)
| PInt (n : N)
| PChar (lo hi : N)                          (* a character or a range of characters *)
| PTuple (l : list pat)
| PCtor (p : list string) (l : list pat)
| POr (l : list pat).

Inductive binop := BOr | BAnd | BEq | BNe | BLt | BGt | BLe | BGe | BAdd | BSub.
Inductive unop := UNot | URef | UDeref.

Inductive expr :=
| EInt (n : N) (suffix : string) | EByte (b : byte) | EChar (c : N) | EBool (b : bool)
| EStr (s : bytes) | EBytes (s : bytes)
| EPath (p : list string)
| EField (e : expr) (f : string)
| EIndex (e i : expr)
| ERange (a b : option expr)
| ECall (f : expr) (args : list expr)
| EMethod (e : expr) (m : string) (args : list expr)
| EUn (o : unop) (e : expr)
| EBin (o : binop) (a b : expr)
| ECast (e : expr) (t : ty)
| EAssign (o : option binop) (l r : expr)     (* =, +=, -= *)
| EIf (c t : expr) (e : option expr)
| EMatch (e : expr) (arms : list (pat * expr))
| EMatches (e : expr) (p : pat)               (* matches!(e, p) *)
| EWhile (c b : expr)
| ELoop (b : expr)
| EFor (p : pat) (e b : expr)
| EBreak (e : option expr)
| EReturn (e : option expr)
| EBlock (l : list stmt) (tail : option expr)
| EClosure (ps : list pat) (b : expr)
| EStruct (p : list string) (fs : list (string * expr))
| ETuple (l : list expr)
| EArray (l : list expr)
with stmt := SLet (p : pat) (e : expr) | SExpr (e : expr).

(** How a method takes [self]. *)
Inductive receiver := NoSelf | ByValue | ByRef | ByMut.
Record fn := Fn { fn_name : string; fn_self : receiver; fn_params : list (string * ty); fn_ret : option ty; fn_body : expr }.

Inductive item :=
| IFn (f : fn)
| IConst (x : string) (t : ty) (e : expr)      (* const and static *)
| IImpl (trait : option ty) (t : ty) (l : list item)
| IStruct (attrs : list (list token)) (x : string) (fields : list (string * ty))   (* tuple structs: 0, 1, .. *)
| IEnum (attrs : list (list token)) (x : string) (variants : list (string * nat))  (* the number of arguments *)
| IType (x : string) (t : ty)
| ISkip.                                      (* use, mod, macro_rules *)

(** * 3. Parser *)

Definition parser (A : Type) := list token -> option (A * list token).
Definition pret {A} (a : A) : parser A := fun ts => Some (a, ts).
Definition pfail {A} : parser A := fun _ => None.
Definition pbind {A B} (x : parser A) (f : A -> parser B) : parser B :=
  fun ts => match x ts with Some (a, r) => f a r | None => None end.
Notation "'do!' x ':=' e 'in' k" := (pbind e (fun x => k))
  (at level 200, x pattern, e at level 200, k at level 200, right associativity).

Definition is_p (x : string) (ts : list token) : bool :=
  match ts with TP y :: _ => String.eqb x y | _ => false end.
Definition is_kw (x : string) (ts : list token) : bool :=
  match ts with TId y :: _ => String.eqb x y | _ => false end.
Definition eat (x : string) : parser unit :=
  fun ts => match ts with TP y :: r => if String.eqb x y then Some (tt, r) else None | _ => None end.
Definition eat_kw (x : string) : parser unit :=
  fun ts => match ts with TId y :: r => if String.eqb x y then Some (tt, r) else None | _ => None end.
Definition try_p (x : string) : parser bool :=
  fun ts => match ts with TP y :: r => if String.eqb x y then Some (true, r) else Some (false, ts) | _ => Some (false, ts) end.
Definition try_kw (x : string) : parser bool :=
  fun ts => match ts with TId y :: r => if String.eqb x y then Some (true, r) else Some (false, ts) | _ => Some (false, ts) end.
Definition ident : parser string := fun ts => match ts with TId x :: r => Some (x, r) | _ => None end.
Definition peek {A} (f : list token -> parser A) : parser A := fun ts => f ts ts.

(** [p], [p,p], ... up to [close], with an optional comma at the end. *)
Fixpoint sep_list {A} (n : nat) (p : parser A) (close : string) : parser (list A) :=
  match n with
  | O => pfail
  | S n =>
    do! c := try_p close in
    if c then pret []
    else
      do! a := p in
      do! comma := try_p "," in
      if comma then do! l := sep_list n p close in pret (a :: l)
      else do! _ := eat close in pret [a]
  end.

(** Skips tokens up to the bracket that closes the [d] open ones. *)
Fixpoint skip_close (n d : nat) : parser (list token) :=
  match n with
  | O => pfail
  | S n => fun ts =>
    match ts with
    | t :: r =>
      let go d := match skip_close n d r with Some (l, r') => Some (t :: l, r') | None => None end in
      match t with
      | TP "("%string | TP "["%string | TP "{"%string => go (S d)
      | TP ")"%string | TP "]"%string | TP "}"%string => match d with 1 => Some ([], r) | S d' => go d' | O => None end
      | _ => go d
      end
    | [] => None
    end
  end.
(** The same for angle brackets. *)
Fixpoint skip_angle (n d : nat) : parser unit :=
  match n with
  | O => pfail
  | S n => fun ts =>
    match ts with
    | TP "<"%string :: r => skip_angle n (S d) r
    | TP ">"%string :: r => match d with 1 => Some (tt, r) | S d' => skip_angle n d' r | O => None end
    | _ :: r => skip_angle n d r
    | [] => None
    end
  end.
Definition generics (n : nat) : parser unit :=
  do! g := try_p "<" in if g then skip_angle n 1 else pret tt.
(** Skips to the next [;]. *)
Fixpoint skip_semi (ts : list token) : option (unit * list token) :=
  match ts with
  | TP ";"%string :: r => Some (tt, r)
  | _ :: r => skip_semi r
  | [] => None
  end.

Fixpoint path_rest (n : nat) : parser (list string) :=
  match n with
  | O => pfail
  | S n => do! c := try_p "::" in
           if c then do! x := ident in do! l := path_rest n in pret (x :: l) else pret []
  end.
Definition path (n : nat) : parser (list string) :=
  do! _ := try_p "::" in do! x := ident in do! l := path_rest n in pret (x :: l).

Fixpoint p_type (n : nat) : parser ty :=
  match n with
  | O => pfail
  | S n => fun ts =>
    match ts with
    | TP "&"%string :: r =>
      (do! _ := (fun ts => match ts with TLife _ :: r => Some (tt, r) | _ => Some (tt, ts) end) in
       do! m := try_kw "mut" in
       do! t := p_type n in pret (TyRef m t)) r
    | TP "["%string :: r =>
      (do! t := p_type n in
       do! s := try_p ";" in
       do! _ := (if s then (fun ts => match ts with TInt _ _ :: r => Some (tt, r) | _ => None end) else pret tt) in
       do! _ := eat "]" in pret (TySlice t)) r
    | TP "("%string :: r => (do! l := sep_list n (p_type n) ")" in pret (TyTuple l)) r
    | TId "impl"%string :: r =>
      (do! p := path n in do! _ := eat "(" in do! l := sep_list n (p_type n) ")" in
       do! a := try_p "->" in
       do! _ := (if a then do! _ := p_type n in pret tt else pret tt) in
       pret (TyFn p l)) r
    | _ =>
      (do! p := path n in
       do! g := try_p "<" in
       if g then
         do! l := sep_list n (fun ts => match ts with
                                       | TLife _ :: r => Some (None, r)
                                       | _ => (do! t := p_type n in pret (Some t)) ts end) ">" in
         pret (TyPath p (fold_right (fun x acc => match x with Some t => t :: acc | None => acc end) [] l))
       else pret (TyPath p [])) ts
    end
  end.

(** A name that starts with a lower-case letter is a variable, in a pattern. *)
Definition lower_name (x : string) : bool :=
  match bs x with b :: _ => in_range "a" "z" b || beq b "_" | [] => false end.

Fixpoint p_pat1 (n : nat) : parser pat :=
  match n with
  | O => pfail
  | S n => fun ts =>
    match ts with
    | TId "_"%string :: r => Some (PWild, r)
    | TId "mut"%string :: TId x :: r => Some (PVar x, r)
    | TInt k _ :: r => Some (PInt k, r)
    | TChar a :: TP "..="%string :: TChar b :: r => Some (PChar a b, r)
    | TChar a :: r => Some (PChar a a, r)
    | TP "("%string :: r => (do! l := sep_list n (p_pat1 n) ")" in pret (PTuple l)) r
    | _ =>
      (do! p := path n in
       do! g := try_p "(" in
       if g then do! l := sep_list n (p_pat1 n) ")" in pret (PCtor p l)
       else match p with
            | [x] => if lower_name x then pret (PVar x) else pret (PCtor p [])
            | _ => pret (PCtor p [])
            end) ts
    end
  end.
Fixpoint p_alts (n : nat) (p : parser pat) : parser (list pat) :=
  match n with
  | O => pfail
  | S n => do! a := p in
           do! c := try_p "|" in
           if c then do! l := p_alts n p in pret (a :: l) else pret [a]
  end.
Definition p_pat (n : nat) : parser pat :=
  do! l := p_alts n (p_pat1 n) in pret (match l with [p] => p | _ => POr l end).

(** Binary operators by level, the loosest first. *)
Definition op_at (level : nat) (ts : list token) : option binop :=
  match ts with
  | TP p :: _ =>
    match level, p with
    | 0, "||" => Some BOr
    | 1, "&&" => Some BAnd
    | 2, "==" => Some BEq | 2, "!=" => Some BNe | 2, "<" => Some BLt | 2, ">" => Some BGt
    | 2, "<=" => Some BLe | 2, ">=" => Some BGe
    | 3, "+" => Some BAdd | 3, "-" => Some BSub
    | _, _ => None
    end%string
  | _ => None
  end.
(** An expression that ends with a block needs no [;] as a statement. *)
Definition block_like (ts : list token) : bool :=
  is_p "{" ts || is_kw "if" ts || is_kw "match" ts || is_kw "while" ts || is_kw "loop" ts || is_kw "for" ts ||
  is_kw "unsafe" ts.
(** No operand follows. *)
Definition no_operand (ts : list token) : bool :=
  is_p "]" ts || is_p ")" ts || is_p "}" ts || is_p "{" ts || is_p "," ts || is_p ";" ts.

(** Casts. *)
Fixpoint p_cast (n : nat) (e : expr) : parser expr :=
  match n with
  | O => pfail
  | S n => do! c := try_kw "as" in
           if c then do! t := p_type n in p_cast n (ECast e t) else pret e
  end.

(** [st]: a struct literal may stand here (not in the head of an [if], [match], [while], [for]). *)
Fixpoint p_expr (n : nat) (st : bool) : parser expr :=
  match n with
  | O => pfail
  | S n =>
    do! l := p_range n st in
    peek (fun ts =>
      if is_p "=" ts then do! _ := eat "=" in do! r := p_expr n st in pret (EAssign None l r)
      else if is_p "+=" ts then do! _ := eat "+=" in do! r := p_expr n st in pret (EAssign (Some BAdd) l r)
      else if is_p "-=" ts then do! _ := eat "-=" in do! r := p_expr n st in pret (EAssign (Some BSub) l r)
      else pret l)
  end
with p_range (n : nat) (st : bool) : parser expr :=
  match n with
  | O => pfail
  | S n =>
    let upper := peek (fun ts => if no_operand ts then pret None else do! e := p_bin n 0 st in pret (Some e)) in
    do! d := try_p ".." in
    if d then do! e := upper in pret (ERange None e)
    else
      do! l := p_bin n 0 st in
      do! d := try_p ".." in
      if d then do! e := upper in pret (ERange (Some l) e) else pret l
  end
with p_bin (n level : nat) (st : bool) : parser expr :=
  match n with
  | O => pfail
  | S n =>
    match level with
    | 4 => do! e := p_unary n st in p_cast n e
    | _ => do! l := p_bin n (S level) st in p_bin_rest n level st l
    end
  end
with p_bin_rest (n level : nat) (st : bool) (l : expr) : parser expr :=
  match n with
  | O => pfail
  | S n => fun ts =>
    match op_at level ts, ts with
    | Some o, _ :: r => (do! b := p_bin n (S level) st in p_bin_rest n level st (EBin o l b)) r
    | _, _ => Some (l, ts)
    end
  end
with p_unary (n : nat) (st : bool) : parser expr :=
  match n with
  | O => pfail
  | S n => fun ts =>
    match ts with
    | TP "!"%string :: r => (do! e := p_unary n st in pret (EUn UNot e)) r
    | TP "&"%string :: r => (do! _ := try_kw "mut" in do! e := p_unary n st in pret (EUn URef e)) r
    | TP "*"%string :: r => (do! e := p_unary n st in pret (EUn UDeref e)) r
    | _ => (do! e := p_primary n st in p_postfix n e) ts
    end
  end
with p_postfix (n : nat) (e : expr) : parser expr :=
  match n with
  | O => pfail
  | S n => fun ts =>
    match ts with
    | TP "."%string :: TInt 0 _ :: r => p_postfix n (EField e "0") r
    | TP "."%string :: TId m :: TP "("%string :: r =>
      (do! l := sep_list n (p_expr n true) ")" in p_postfix n (EMethod e m l)) r
    | TP "."%string :: TId f :: r => p_postfix n (EField e f) r
    | TP "("%string :: r => (do! l := sep_list n (p_expr n true) ")" in p_postfix n (ECall e l)) r
    | TP "["%string :: r => (do! i := p_expr n true in do! _ := eat "]" in p_postfix n (EIndex e i)) r
    | _ => Some (e, ts)
    end
  end
with p_primary (n : nat) (st : bool) : parser expr :=
  match n with
  | O => pfail
  | S n => fun ts =>
    match ts with
    | TInt k x :: r => Some (EInt k x, r)
    | TByte b :: r => Some (EByte b, r)
    | TChar c :: r => Some (EChar c, r)
    | TStr s :: r => Some (EStr s, r)
    | TBytes s :: r => Some (EBytes s, r)
    | TId "true"%string :: r => Some (EBool true, r)
    | TId "false"%string :: r => Some (EBool false, r)
    | TP "("%string :: r =>
      (do! l := sep_list n (p_expr n true) ")" in pret (match l with [e] => e | _ => ETuple l end)) r
    | TP "["%string :: r => (do! l := sep_list n (p_expr n true) "]" in pret (EArray l)) r
    | TP "|"%string :: r =>
      (do! ps := sep_list n (p_pat1 n) "|" in do! b := p_expr n true in pret (EClosure ps b)) r
    | TId "return"%string :: r =>
      (peek (fun ts => if no_operand ts then pret (EReturn None) else do! e := p_expr n st in pret (EReturn (Some e)))) r
    | TId "break"%string :: r =>
      (peek (fun ts => if no_operand ts then pret (EBreak None) else do! e := p_expr n st in pret (EBreak (Some e)))) r
    | TId "matches"%string :: TP "!"%string :: TP "("%string :: r =>
      (do! e := p_expr n true in do! _ := eat "," in do! p := p_pat n in do! _ := eat ")" in pret (EMatches e p)) r
    | _ =>
      if block_like ts then p_block_like n ts
      else
        (do! p := path n in
         peek (fun ts =>
           if st && is_p "{" ts then
             do! _ := eat "{" in
             do! fs := sep_list n (do! x := ident in
                                   do! c := try_p ":" in
                                   if c then do! e := p_expr n true in pret (x, e) else pret (x, EPath [x])) "}" in
             pret (EStruct p fs)
           else pret (EPath p))) ts
    end
  end
with p_block_like (n : nat) : parser expr :=
  match n with
  | O => pfail
  | S n => fun ts =>
    match ts with
    | TId "unsafe"%string :: r => p_block n r
    | TId "if"%string :: r =>
      (do! c := p_expr n false in
       do! t := p_block n in
       do! e := try_kw "else" in
       if e then do! b := p_block_like n in pret (EIf c t (Some b)) else pret (EIf c t None)) r
    | TId "match"%string :: r =>
      (do! e := p_expr n false in do! _ := eat "{" in do! l := p_arms n in pret (EMatch e l)) r
    | TId "while"%string :: r => (do! c := p_expr n false in do! b := p_block n in pret (EWhile c b)) r
    | TId "loop"%string :: r => (do! b := p_block n in pret (ELoop b)) r
    | TId "for"%string :: r =>
      (do! p := p_pat1 n in do! _ := eat_kw "in" in do! e := p_expr n false in do! b := p_block n in pret (EFor p e b)) r
    | _ => p_block n ts
    end
  end
with p_arms (n : nat) : parser (list (pat * expr)) :=
  match n with
  | O => pfail
  | S n =>
    do! c := try_p "}" in
    if c then pret []
    else
      do! p := p_pat n in
      do! _ := eat "=>" in
      do! e := peek (fun ts => if is_p "{" ts then p_block n else p_expr n true) in
      do! _ := try_p "," in
      do! l := p_arms n in pret ((p, e) :: l)
  end
with p_block (n : nat) : parser expr :=
  match n with
  | O => pfail
  | S n => do! _ := eat "{" in do! b := p_stmts n in pret (EBlock (fst b) (snd b))
  end
with p_stmts (n : nat) : parser (list stmt * option expr) :=
  match n with
  | O => pfail
  | S n =>
    do! c := try_p "}" in
    if c then pret ([], None)
    else peek (fun ts =>
      let more (s : stmt) := do! r := p_stmts n in pret (s :: fst r, snd r) in
      if is_kw "let" ts then
        do! _ := eat_kw "let" in
        do! p := p_pat1 n in
        do! t := try_p ":" in
        do! _ := (if t then do! _ := p_type n in pret tt else pret tt) in
        do! _ := eat "=" in
        do! e := p_expr n true in
        do! _ := eat ";" in more (SLet p e)
      else if is_kw "use" ts then do! _ := skip_semi in p_stmts n
      else
        do! e := (if block_like ts then p_block_like n else p_expr n true) in
        do! s := try_p ";" in
        if s then more (SExpr e)
        else do! c := try_p "}" in
             if c then pret ([], Some e)
             else if block_like ts then more (SExpr e) else pfail)
  end.

(** Items. *)
Fixpoint attributes (n : nat) : parser (list (list token)) :=
  match n with
  | O => pfail
  | S n =>
    do! h := try_p "#" in
    if h then
      do! _ := try_p "!" in
      do! _ := eat "[" in
      do! a := skip_close n 1 in
      do! l := attributes n in pret (a :: l)
    else pret []
  end.
Definition visibility (n : nat) : parser unit :=
  do! p := try_kw "pub" in
  if p then do! c := try_p "(" in if c then do! _ := skip_close n 1 in pret tt else pret tt
  else pret tt.

Definition receiver_of : parser receiver :=
  fun ts => match ts with
  | TP "&" :: TId "mut" :: TId "self" :: r => Some (ByMut, r)
  | TP "&" :: TId "self" :: r => Some (ByRef, r)
  | TId "self" :: r => Some (ByValue, r)
  | _ => Some (NoSelf, ts)
  end%string.
Definition p_fn (n : nat) : parser fn :=
  do! x := ident in
  do! _ := generics n in
  do! _ := eat "(" in
  do! s := receiver_of in
  do! _ := (match s with NoSelf => pret tt | _ => do! _ := try_p "," in pret tt end) in
  do! ps := sep_list n (do! _ := try_kw "mut" in do! x := ident in do! _ := eat ":" in
                        do! t := p_type n in pret (x, t)) ")" in
  do! a := try_p "->" in
  do! r := (if a then do! t := p_type n in pret (Some t) else pret None) in
  do! b := p_block n in
  pret (Fn x s ps r b).

Definition p_field (n : nat) : parser (string * ty) :=
  do! _ := visibility n in do! x := ident in do! _ := eat ":" in do! t := p_type n in pret (x, t).
Definition p_unnamed (n : nat) : parser ty := do! _ := visibility n in p_type n.
Fixpoint numbered (i : nat) (l : list ty) : list (string * ty) :=
  match l with
  | t :: l' => (match i with 0 => "0" | 1 => "1" | _ => "2" end%string, t) :: numbered (S i) l'
  | [] => []
  end.
Definition p_variant (n : nat) : parser (string * nat) :=
  do! x := ident in
  do! c := try_p "(" in
  if c then do! l := sep_list n (p_type n) ")" in pret (x, length l) else pret (x, 0).

Fixpoint p_item (n : nat) : parser item :=
  match n with
  | O => pfail
  | S n =>
    do! attrs := attributes n in
    do! _ := visibility n in
    fun ts =>
    match ts with
    | TId "const"%string :: TId "fn"%string :: r => (do! f := p_fn n in pret (IFn f)) r
    | TId "fn"%string :: r => (do! f := p_fn n in pret (IFn f)) r
    | TId "const"%string :: TId x :: TP ":"%string :: r | TId "static"%string :: TId x :: TP ":"%string :: r =>
      (do! t := p_type n in do! _ := eat "=" in do! e := p_expr n true in do! _ := eat ";" in pret (IConst x t e)) r
    | TId "impl"%string :: r =>
      (do! _ := generics n in
       do! t := p_type n in
       do! f := try_kw "for" in
       do! h := (if f then do! t' := p_type n in pret (Some t, t') else pret (None, t)) in
       do! _ := eat "{" in
       do! l := p_items n in pret (IImpl (fst h) (snd h) l)) r
    | TId "struct"%string :: TId x :: r =>
      (do! _ := generics n in
       peek (fun ts =>
         if is_p "(" ts then
           do! _ := eat "(" in do! l := sep_list n (p_unnamed n) ")" in do! _ := eat ";" in
           pret (IStruct attrs x (numbered 0 l))
         else
           do! _ := eat "{" in do! l := sep_list n (p_field n) "}" in pret (IStruct attrs x l))) r
    | TId "enum"%string :: TId x :: r =>
      (do! _ := generics n in do! _ := eat "{" in do! l := sep_list n (p_variant n) "}" in pret (IEnum attrs x l)) r
    | TId "type"%string :: TId x :: r =>
      (do! _ := generics n in do! _ := eat "=" in do! t := p_type n in do! _ := eat ";" in pret (IType x t)) r
    | TId "use"%string :: r => (do! _ := skip_semi in pret ISkip) r
    | TId "mod"%string :: TId _ :: TP ";"%string :: r => Some (ISkip, r)
    | TId "mod"%string :: TId _ :: TP "{"%string :: r => (do! _ := skip_close n 1 in pret ISkip) r
    | TId "macro_rules"%string :: TP "!"%string :: TId _ :: TP "{"%string :: r => (do! _ := skip_close n 1 in pret ISkip) r
    | _ => None
    end
  end
with p_items (n : nat) : parser (list item) :=
  match n with
  | O => pfail
  | S n => do! c := try_p "}" in
           if c then pret [] else do! i := p_item n in do! l := p_items n in pret (i :: l)
  end.
Fixpoint p_file (n : nat) (ts : list token) : option (list item) :=
  match n with
  | O => None
  | S n =>
    match ts with
    | [] => Some []
    | _ => match p_item n ts with
           | Some (i, r) => match p_file n r with Some l => Some (i :: l) | None => None end
           | None => None
           end
    end
  end.
Definition parse (s : bytes) : option (list item) :=
  match tokens s with Some ts => p_file (20 * length ts + 100) ts | None => None end.
