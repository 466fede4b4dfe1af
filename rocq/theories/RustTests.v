(** The test files of /repo/tests, the example in the documentation (lib.rs:10-19) and the macro [langtag!]
    (lib.rs:207-215), read as text and run on the source text.

    The interpreter of RustEval.v runs them, extended by what they use and the sources do not: the macros [assert!],
    [assert_eq!], [assert_ne!], [vec!] and [panic!], the operator [?], [Result::is_err], [AsRef::as_ref], and [==] on
    values that are not numbers. *)
From Verif Require Import Base RustText RustTestText RustSyntax RustEval RustProgram RustFuel.
Open Scope string_scope.
Open Scope nat_scope.
Open Scope list_scope.

(** * 1. Reading *)

(** A backslash at the end of a line, in a string literal: it, the end of the line and the space after it are no part of
    the literal (tests/lib.rs:190-237; the test files have no other backslash). *)
Fixpoint joined (skip : bool) (s : bytes) : bytes :=
  match s with
  | [] => []
  | b :: s' =>
    if skip && is_space b then joined true s'
    else match s with
         | "\" :: "010" :: r => joined true r
         | _ => b :: joined false s'
         end%byte
  end.
(** A text, line by line. *)
Fixpoint lines_from (line s : bytes) : list bytes :=
  match s with
  | [] => [rev line]
  | b :: s' => if beq b "010" then rev line :: lines_from [] s' else lines_from (b :: line) s'
  end.
Definition lines (s : bytes) : list bytes := lines_from [] s.

(** [tokens] reads no string literal with a character that is not ASCII; a line may have one such literal, without
    escapes (tests/lib.rs:35).  No token of the test files spans two lines. *)
Definition line_tokens (l : bytes) : option (list token) :=
  match tokens l with
  | Some ts => Some ts
  | None =>
    match span (fun b => negb (beq b """")) l with
    | (a, _ :: r) =>
      match span (fun b => negb (beq b """")) r with
      | (x, _ :: c) =>
        match tokens a, tokens c with
        | Some ta, Some tc => if existsb (fun b => beq b "\") x then None else Some (ta ++ TStr x :: tc)
        | _, _ => None
        end
      | _ => None
      end
    | _ => None
    end
  end.
Fixpoint lines_tokens (l : list bytes) : option (list token) :=
  match l with
  | [] => Some []
  | x :: l' => match line_tokens x, lines_tokens l' with Some a, Some b => Some (a ++ b) | _, _ => None end
  end.

(** [m!(..)] is read as a call of [m], [vec![..]] as an array, and [e?] as a method. *)
Definition macros : list string := ["assert"; "assert_eq"; "assert_ne"; "panic"; "langtag"].
Fixpoint plain_macros (ts : list token) : list token :=
  match ts with
  | TId x :: TP "!" :: r =>
    if String.eqb x "vec" then plain_macros r
    else if existsb (String.eqb x) macros then TId x :: plain_macros r
    else TId x :: TP "!" :: plain_macros r
  | TP "?" :: r => TP "." :: TId "?" :: TP "(" :: TP ")" :: plain_macros r
  | t :: r => t :: plain_macros r
  | [] => []
  end.
Definition items_of (ts : list token) : option (list item) :=
  p_file (20 * length ts + 100) (plain_macros ts).
Definition parse_test (s : bytes) : option (list item) :=
  match lines_tokens (lines (joined false s)) with Some ts => items_of ts | None => None end.

(** [macro_rules! m { ($x:literal) => { body }; }] is read as [fn m(x: &str) { body }]: the argument is a string literal,
    and the names that [body] binds are not those of the caller. *)
Fixpoint no_dollar (ts : list token) : list token :=
  match ts with
  | TP "$" :: r => no_dollar r
  | t :: r => t :: no_dollar r
  | [] => []
  end.
Fixpoint macro_fn (m : string) (ts : list token) : option (list token) :=
  match ts with
  | TId "macro_rules" :: TP "!" :: TId y :: TP "{" :: TP "(" :: TP "$" :: TId x :: TP ":" :: TId "literal" :: TP ")" ::
      TP "=>" :: TP "{" :: r =>
    if String.eqb m y then
      match skip_close (length r) 1 r with
      | Some (body, TP ";" :: TP "}" :: _) =>
        Some (TId "fn" :: TId m :: TP "(" :: TId x :: TP ":" :: TP "&" :: TId "str" :: TP ")" :: TP "{" ::
              no_dollar body ++ [TP "}"])
      | _ => None
      end
    else None
  | _ :: r => macro_fn m r
  | [] => None
  end.
Definition macro_items (m : string) (s : bytes) : option (list item) :=
  match tokens s with
  | Some ts => match macro_fn m ts with Some ts => items_of ts | None => None end
  | None => None
  end.

(** The first example in the documentation of a module: the lines between [//! ```rust] and [//! ```]. *)
Fixpoint example_lines (inside : bool) (l : list bytes) : list bytes :=
  match l with
  | x :: l' =>
    match strip (bs "//!") x with
    | Some y =>
      if inside then (match strip (bs " ```") y with Some _ => [] | None => y :: example_lines true l' end)
      else example_lines (match strip (bs " ```rust") y with Some _ => true | None => false end) l'
    | None => []
    end
  | [] => []
  end.
Definition example_of (s : bytes) : option (list item) :=
  match lines_tokens (example_lines false (lines s)) with Some ts => items_of ts | None => None end.

(** * 2. Running *)

Fixpoint bytes_eqb (a b : bytes) : bool :=
  match a, b with
  | [], [] => true
  | x :: a', y :: b' => beq x y && bytes_eqb a' b'
  | _, _ => false
  end.

Definition both (T P : program) : program :=
  Program (fns T ++ fns P) (consts T ++ consts P) (structs T ++ structs P) (enums T ++ enums P) (aliases T ++ aliases P).

Section Tests.
(** [T == str] and [str == T], for the types [T] that str_newtype derives: the implementations are generated by
    str_newtype ([ord(..)], lib.rs:75) and not in /repo.  [K x y], or equal, is what they answer on the texts. *)
Variable K : bytes -> bytes -> bool.
(** The machine, the program of the tests, and the program under test. *)
Variable M : nat.
Variables T P : program.
(** How the functions of the program under test are called. *)
Variable C : caller.

Definition option_of (v : value) : option (option value) :=
  match v with
  | VEnum "Option" "Some" [x] => Some (Some x)
  | VEnum "Option" "None" [] => Some None
  | _ => None
  end.
Definition newtype_text (v : value) : option bytes :=
  match v with VStruct _ [("0", VStr x)] => Some x | _ => None end.
Definition same1 (a b : value) : outcome bool :=
  match a, b with
  | VStr x, VStr y => Ret (bytes_eqb x y)
  | VStruct _ _, VStr y => match newtype_text a with Some x => Ret (bytes_eqb x y || K x y) | None => OutOfFuel end
  | VStr y, VStruct _ _ => match newtype_text b with Some x => Ret (bytes_eqb x y || K x y) | None => OutOfFuel end
  | VStruct t _, VStruct u _ =>
    if String.eqb t u then
      let! r := C (VPath [t; "eq"]) [a; b] in match fst r with VBool x => Ret x | _ => OutOfFuel end
    else OutOfFuel
  | _, _ => OutOfFuel
  end.
Definition same (a b : value) : outcome bool :=
  match option_of a, option_of b with
  | Some (Some x), Some (Some y) => same1 x y
  | Some None, Some None => Ret true
  | Some _, Some _ => Ret false
  | None, None => same1 a b
  | _, _ => OutOfFuel
  end.

Definition test_step (ev : evaluator) (call : caller) (e : env) (x : expr) : res :=
  let holds (b : bool) (r : outcome bool) (e : env) : res :=
    let! c := r in if Bool.eqb b c then done e VUnit else Panic in
  match x with
  | ECall (EPath ["assert"]) (c :: _) =>      (* the other arguments are the message *)
    andthen (ev e c) (fun e v => match v with VBool c => holds true (Ret c) e | _ => OutOfFuel end)
  | ECall (EPath ["assert_eq"]) [a; b] => eval_args ev e [a; b] (fun e vs =>
      match vs with [v; w] => holds true (same v w) e | _ => OutOfFuel end)
  | ECall (EPath ["assert_ne"]) [a; b] => eval_args ev e [a; b] (fun e vs =>
      match vs with [v; w] => holds false (same v w) e | _ => OutOfFuel end)
  | ECall (EPath ["panic"]) _ => Panic
  | EMethod a "is_err" [] =>
    andthen (ev e a) (fun e v =>
      match v with
      | VEnum "Result" "Ok" [_] => done e (VBool false)
      | VEnum "Result" "Err" [_] => done e (VBool true)
      | _ => OutOfFuel
      end)
  | EMethod a "?" [] =>                       (* the conversion of the error is the identity *)
    andthen (ev e a) (fun e v =>
      match v with
      | VEnum "Result" "Ok" [x] => done e x
      | VEnum "Result" "Err" [x] => Ret (e, Returned (errv x))
      | _ => OutOfFuel
      end)
  | EBin BEq a b => andthen (ev e a) (fun e v => andthen (ev e b) (fun e w => pure e (let! r := same v w in Ret (VBool r))))
  | EPath ["AsRef"; "as_ref"] => done e (VPath ["AsRef"; "as_ref"])
  | EPath ["crate"; t; "from_str"] => done e (VPath [t; "new"])  (* generated by str_newtype: [new], for a [&str] *)
  | _ => eval_step M (both T P) ev call e x
  end.
Definition test_call_step (ev : evaluator) (call : caller) (f : value) (args : list value)
  : outcome (value * list value) :=
  match f with
  | VPath ["AsRef"; "as_ref"] =>              (* AsRef<str>, by the types of [assert_eq!] *)
    match args with [VStruct _ [("0", VStr s)]] => Ret (VStr s, []) | _ => OutOfFuel end
  | VPath p => match resolve T p with TgFn t g => run_fn ev t g args | _ => C f args end
  | _ => call_step (both T P) ev call f args
  end.

Fixpoint test_eval (n : nat) (e : env) (x : expr) {struct n} : res :=
  match n with
  | O => OutOfFuel
  | S n => test_step (test_eval n) (test_call n) e x
  end
with test_call (n : nat) (f : value) (args : list value) {struct n} : outcome (value * list value) :=
  match n with
  | O => OutOfFuel
  | S n => test_call_step (test_eval n) (test_call n) f args
  end.
End Tests.

(** * 3. The files *)

Definition loaded (l : list (option (list item))) : option program :=
  fold_left (fun P is => match P, is with Some P, Some is => Some (fold_left (load_item "") is P) | _, _ => None end) l
    (Some (Program [] [] [] [] [])).

Definition test_files : list (list byte) :=
  [tests_extension_rs; tests_langtag_rs; tests_language_rs; tests_lib_rs; tests_privateuse_rs; tests_variant_rs].
Definition test_program : option program := loaded (macro_items "langtag" lib_rs :: map parse_test test_files).
Definition example_program : option program := loaded [example_of lib_rs].

Definition tests : program :=
  Eval vm_compute in match test_program with Some P => P | None => Program [] [] [] [] [] end.
Lemma tests_are_the_text : test_program = Some tests.
Proof. vm_cast_no_check (eq_refl (Some tests)). Qed.
Definition example : program :=
  Eval vm_compute in match example_program with Some P => P | None => Program [] [] [] [] [] end.
Lemma example_is_the_text : example_program = Some example.
Proof. vm_cast_no_check (eq_refl (Some example)). Qed.

(** * 4. More fuel *)

Section Upto.
Variables K K' : bytes -> bytes -> bool.
Hypothesis KK : forall x y, K x y = K' x y.
Variables M M' : nat.
Hypothesis MM : M <= M'.
Variables T P : program.
Variables C C' : caller.
Hypothesis CC : forall f args, upto (C f args) (C' f args).

Lemma upto_same1 a b : upto (same1 K C a b) (same1 K' C' a b).
Proof.
  unfold same1. destruct a; try apply upto_refl; destruct b; try apply upto_refl;
    try (destruct (newtype_text _); rewrite ?KK; apply upto_refl).
  destruct (String.eqb _ _); [|apply upto_refl]. apply upto_bind; [apply CC|intros; apply upto_refl].
Qed.
Lemma upto_same a b : upto (same K C a b) (same K' C' a b).
Proof.
  unfold same. destruct (option_of a) as [[x|]|], (option_of b) as [[y|]|]; try apply upto_refl; apply upto_same1.
Qed.

Section Step.
Variables ev ev' : evaluator.
Hypothesis EV : forall e x, upto (ev e x) (ev' e x).
Variables cl cl' : caller.
Hypothesis CL : forall f args, upto (cl f args) (cl' f args).

Lemma upto_test_step e x : upto (test_step K M T P C ev cl e x) (test_step K' M' T P C' ev' cl' e x).
Proof.
  pose proof (upto_eval_step M M' MM (both T P) ev ev' EV cl cl' CL e x) as F.
  unfold test_step. revert F.
  generalize (eval_step M (both T P) ev cl e x), (eval_step M' (both T P) ev' cl' e x). intros L L' F.
  destruct x; try exact F.
  - repeat lazymatch goal with |- upto (match ?x with _ => _ end) _ => destruct x; try exact F end; apply upto_refl.
  - repeat lazymatch goal with |- upto (match ?x with _ => _ end) _ => destruct x; try exact F end; try apply upto_refl;
      first [ apply upto_andthen; [apply EV|]; intros e' v; apply upto_refl
            | apply upto_args; [exact EV|]; intros e' [|v [|w [|]]]; try apply upto_refl;
              apply upto_bind; [apply upto_same|intros; apply upto_refl] ].
  - repeat lazymatch goal with |- upto (match ?x with _ => _ end) _ => destruct x; try exact F end;
      apply upto_andthen; auto; intros; apply upto_refl.
  - destruct o; try exact F. apply upto_andthen; [apply EV|]. intros. apply upto_andthen; [apply EV|]. intros.
    apply upto_pure, upto_bind; [apply upto_same|intros; apply upto_refl].
Qed.
Lemma upto_test_call_step f args :
  upto (test_call_step T P C ev cl f args) (test_call_step T P C' ev' cl' f args).
Proof.
  unfold test_call_step. destruct f; try (apply upto_call_step; [exact EV|exact CL]).
  assert (F : upto (match resolve T p with TgFn t g => run_fn ev t g args | _ => C (VPath p) args end)
                   (match resolve T p with TgFn t g => run_fn ev' t g args | _ => C' (VPath p) args end)).
  { destruct (resolve T p); try apply CC. apply upto_run_fn, EV. }
  revert F. generalize (match resolve T p with TgFn t g => run_fn ev t g args | _ => C (VPath p) args end),
    (match resolve T p with TgFn t g => run_fn ev' t g args | _ => C' (VPath p) args end). intros L L' F.
  repeat lazymatch goal with |- upto (match ?x with _ => _ end) _ => destruct x; try exact F; try apply upto_refl end.
Qed.
End Step.

Lemma upto_test n : forall n', n <= n' ->
  (forall e x, upto (test_eval K M T P C n e x) (test_eval K' M' T P C' n' e x)) /\
  (forall f args, upto (test_call K M T P C n f args) (test_call K' M' T P C' n' f args)).
Proof.
  induction n as [|n IH]; intros n' N; [split; intros; apply upto_fuel|].
  destruct n' as [|n']; [lia|]. destruct (IH n' ltac:(lia)) as [E F].
  split; intros; cbn [test_eval test_call]; [apply upto_test_step|apply upto_test_call_step]; auto.
Qed.
End Upto.
