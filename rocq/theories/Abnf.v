(** Specification, continued: ABNF (RFC 5234) as far as /repo/src/grammar.abnf uses it.

    Syntax, meaning and a reader of ABNF texts.  Like Spec.v, nothing here refers to the model of /repo/src.
    AbnfText.v holds the bytes of grammar.abnf; reading them gives the grammar the crate is built from, so that
    acceptance can be stated against the file itself rather than a transcription of it. *)
From Verif Require Import Base Spec.

(** * 1. Syntax *)

Inductive elem : Type :=
| Name (n : bytes)                                  (* a rule *)
| Quoted (s : bytes)                                (* "..." *)
| Range (lo hi : N)                                 (* %x41-5A *)
| Repeat (lo : nat) (hi : option nat) (e : elem)    (* lo*hi e; [e] is 0*1 e *)
| Sequence (a b : elem)
| Choice (a b : elem).

Definition grammar := list (bytes * elem).

(** RFC 5234, section 2.1: rule names are case-insensitive. *)
Fixpoint bytes_eqb (a b : bytes) : bool :=
  match a, b with
  | [], [] => true
  | x :: a', y :: b' => beq x y && bytes_eqb a' b'
  | _, _ => false
  end.
Fixpoint rule (G : grammar) (n : bytes) : option elem :=
  match G with
  | [] => None
  | (m, e) :: G' => if bytes_eqb (map lower m) (map lower n) then Some e else rule G' n
  end.

(** * 2. Meaning *)

Inductive derives (G : grammar) : elem -> bytes -> Prop :=
| d_name : forall n e s, rule G n = Some e -> derives G e s -> derives G (Name n) s
| d_quoted : forall l s, same_ci s l -> derives G (Quoted l) s
| d_range : forall lo hi b, (lo <= code b)%N -> (code b <= hi)%N -> derives G (Range lo hi) [b]
| d_repeat : forall lo hi e k s,
    lo <= k -> (forall h, hi = Some h -> k <= h) -> copies G e k s -> derives G (Repeat lo hi e) s
| d_sequence : forall a b s t, derives G a s -> derives G b t -> derives G (Sequence a b) (s ++ t)
| d_choice_l : forall a b s, derives G a s -> derives G (Choice a b) s
| d_choice_r : forall a b s, derives G b s -> derives G (Choice a b) s
(** [k] strings derived from [e], one after the other. *)
with copies (G : grammar) : elem -> nat -> bytes -> Prop :=
| c_none : forall e, copies G e 0 []
| c_more : forall e k s t, derives G e s -> copies G e k t -> copies G e (S k) (s ++ t).

(** RFC 5234, appendix B.1: the core rules grammar.abnf uses. *)
Definition core_rules : grammar :=
  [ (bs "ALPHA", Choice (Range 65 90) (Range 97 122)); (bs "DIGIT", Range 48 57) ]%N.

(** * 3. Reading *)

Inductive token : Type :=
| TName (n : bytes)
| TQuoted (s : bytes)
| TRange (lo hi : N)
| TRepeat (lo : nat) (hi : option nat)
| TEqual | TSlash | TOpen | TClose | TOpenOption | TCloseOption.

(** The longest prefix of bytes satisfying [p], and the rest. *)
Fixpoint span (p : byte -> bool) (s : bytes) : bytes * bytes :=
  match s with
  | [] => ([], [])
  | b :: s' => if p b then let (u, v) := span p s' in (b :: u, v) else ([], s)
  end.

Definition newline : byte := "010"%byte.
Definition is_space (b : byte) : bool :=
  beq b " "%byte || beq b "009"%byte || beq b newline || beq b "013"%byte.

Definition decimal (s : bytes) : nat :=
  fold_left (fun n b => 10 * n + N.to_nat (code b - 48)) s 0.

Definition is_hex (b : byte) : bool :=
  is_digit b || ((65 <=? code b)%N && (code b <=? 70)%N) || ((97 <=? code b)%N && (code b <=? 102)%N).
Definition hex_value (b : byte) : N :=
  (if is_digit b then code b - 48 else code (lower b) - 87)%N.
Definition hexadecimal (s : bytes) : N := fold_left (fun n b => 16 * n + hex_value b)%N s 0%N.

Definition is_name_byte (b : byte) : bool := is_alnum b || beq b dash.

Fixpoint tokens (fuel : nat) (s : bytes) : option (list token) :=
  match fuel, s with
  | _, [] => Some []
  | O, _ => None
  | S fuel', c :: r =>
    let also t o := match o with Some l => Some (t :: l) | None => None end in
    if is_space c then tokens fuel' r
    else if beq c ";"%byte then tokens fuel' (snd (span (fun b => negb (beq b newline)) r))
    else if beq c "="%byte then also TEqual (tokens fuel' r)
    else if beq c "/"%byte then also TSlash (tokens fuel' r)
    else if beq c "("%byte then also TOpen (tokens fuel' r)
    else if beq c ")"%byte then also TClose (tokens fuel' r)
    else if beq c "["%byte then also TOpenOption (tokens fuel' r)
    else if beq c "]"%byte then also TCloseOption (tokens fuel' r)
    else if beq c """"%byte then
      match span (fun b => negb (beq b """"%byte)) r with
      | (u, _ :: r') => also (TQuoted u) (tokens fuel' r')
      | (_, []) => None
      end
    else if beq c "%"%byte then
      match r with
      | x :: r1 =>
        if beq (lower x) "x"%byte then
          match span is_hex r1 with
          | ([], _) => None
          | (u, d :: r2) =>
            if beq d dash then
              match span is_hex r2 with
              | ([], _) => None
              | (v, r3) => also (TRange (hexadecimal u) (hexadecimal v)) (tokens fuel' r3)
              end
            else also (TRange (hexadecimal u) (hexadecimal u)) (tokens fuel' (d :: r2))
          | (u, []) => also (TRange (hexadecimal u) (hexadecimal u)) (Some [])
          end
        else None
      | [] => None
      end
    else if is_digit c || beq c "*"%byte then
      match span is_digit (c :: r) with
      | (u, d :: r1) =>
        if beq d "*"%byte then
          match span is_digit r1 with
          | ([], _) => also (TRepeat (decimal u) None) (tokens fuel' r1)
          | (v, r2) => also (TRepeat (decimal u) (Some (decimal v))) (tokens fuel' r2)
          end
        else also (TRepeat (decimal u) (Some (decimal u))) (tokens fuel' (d :: r1))
      | (_, []) => None
      end
    else if is_alpha c then
      let (u, r') := span is_name_byte (c :: r) in also (TName u) (tokens fuel' r')
    else None
  end.

(** Does an element (and not the next rule, a '/', or a closing bracket) come next? *)
Definition element_follows (l : list token) : bool :=
  match l with
  | TName _ :: TEqual :: _ => false
  | TName _ :: _ | TQuoted _ :: _ | TRange _ _ :: _ | TRepeat _ _ :: _ | TOpen :: _ | TOpenOption :: _ => true
  | _ => false
  end.

(** RFC 5234, section 4: alternation, concatenation, repetition, element. *)
Fixpoint alternation (fuel : nat) (l : list token) : option (elem * list token) :=
  match fuel with
  | O => None
  | S fuel' =>
    match concatenation fuel' l with
    | Some (a, TSlash :: l') =>
      match alternation fuel' l' with
      | Some (b, l'') => Some (Choice a b, l'')
      | None => None
      end
    | x => x
    end
  end
with concatenation (fuel : nat) (l : list token) : option (elem * list token) :=
  match fuel with
  | O => None
  | S fuel' =>
    match repetition fuel' l with
    | Some (a, l') =>
      if element_follows l' then
        match concatenation fuel' l' with
        | Some (b, l'') => Some (Sequence a b, l'')
        | None => None
        end
      else Some (a, l')
    | None => None
    end
  end
with repetition (fuel : nat) (l : list token) : option (elem * list token) :=
  match fuel with
  | O => None
  | S fuel' =>
    match l with
    | TRepeat lo hi :: l' =>
      match element fuel' l' with
      | Some (e, l'') => Some (Repeat lo hi e, l'')
      | None => None
      end
    | _ => element fuel' l
    end
  end
with element (fuel : nat) (l : list token) : option (elem * list token) :=
  match fuel with
  | O => None
  | S fuel' =>
    match l with
    | TName n :: l' => Some (Name n, l')
    | TQuoted s :: l' => Some (Quoted s, l')
    | TRange lo hi :: l' => Some (Range lo hi, l')
    | TOpen :: l' =>
      match alternation fuel' l' with
      | Some (e, TClose :: l'') => Some (e, l'')
      | _ => None
      end
    | TOpenOption :: l' =>
      match alternation fuel' l' with
      | Some (e, TCloseOption :: l'') => Some (Repeat 0 (Some 1) e, l'')
      | _ => None
      end
    | _ => None
    end
  end.

Fixpoint rules (fuel : nat) (l : list token) : option grammar :=
  match fuel, l with
  | _, [] => Some []
  | S fuel', TName n :: TEqual :: l' =>
    match alternation (4 * length l) l' with
    | Some (e, l'') =>
      match rules fuel' l'' with
      | Some G => Some ((n, e) :: G)
      | None => None
      end
    | None => None
    end
  | _, _ => None
  end.

Definition read_abnf (text : bytes) : option grammar :=
  match tokens (length text) text with
  | Some l => rules (length l) l
  | None => None
  end.

(** [s] is derived from the rule [name] of the ABNF text [text]. *)
Definition derived_from (text : bytes) (name : string) (s : bytes) : Prop :=
  exists G, read_abnf text = Some G /\ derives (G ++ core_rules) (Name (bs name)) s.
